(** Commands and receive requests of the Espressif driver. *)
From Coq Require Import String Ascii ZArith List Bool Arith Lia ZifyBool ZifyNat.
From Verif Require Import Base QueueSpec LineSpec SerialSpec Ring RingProofs LineRing LineRingProofs Serial SerialProofs
  SerStep TaskMacros CStr CStrProofs Dev DevProofs SimDev SimProofs SimSpec SimParse SimLog Sym DrvStep DrvCommon DrvRun DrvHist DrvActs
  Espressif EsSpec EsFill EsProofs EsCtl EsCtlIn EsRun AtLine EsHist EsThms EsMore EsLine EsReq.
Import ListNotations.
Local Open Scope nat_scope.
Ltac Zify.zify_post_hook ::= Z.div_mod_to_equations.
Local Notation dv := (dev essend esreply espx).
Local Notation ent := (@entry esop).
Local Notation olabE P := (olab re_ok (se_says P) se_tail se_insend false).
Local Notation ilabE := (ilab se_insend se_whole (fun _ : dv => partial_line) se_clears).

(** ** The commands *)

(** Everything the driver may send besides the data: [n] is the number of bytes
    asked for. *)
Definition se_known (P : plat) (d : dv) (cmd : bytes) : Prop :=
  cmd = bs "AT+CWJAP?" ++ [CR; LF] \/
  (char_signed P = false /\ cmd = bs "AT+CIPSTAMAC?" ++ [CR; LF]) \/
  (exists s c, se_command s (ssid (ext d)) (passwd (ext d)) (host d) (typ d) (port d) = Some c /\ cmd = c ++ [CR; LF]) \/
  (exists n, (0 <= n <= 2048)%Z /\ (n <= Z.of_nat (ring_space (rbuf d)))%Z /\ cmd = bs "AT+CIPRECVDATA=" ++ dec n ++ [CR; LF]).

Lemma se_sent : forall P d e d' b, se_step P d e d' -> fLock (fl d) = false -> In b (e_acts e) -> sends b = true ->
  exists a dm d1, e_acts e = [a; b] /\ ilabE (during (e_sch e) d) false dm a /\
    se_in_ext P (during (e_sch e) d) false a dm /\ olabE P dm d1 b /\ se_out_ext P dm b d1 /\ d' = set_io (io d') d1 /\
    keep (during (e_sch e) d) dm /\ (ssid (ext dm) = ssid (ext d) /\ passwd (ext dm) = passwd (ext d)) /\
    (exists ev, sstep (io (during (e_sch e) d)) (io dm) ev) /\ txav (io dm) <= txav (io d).
Proof.
  intros P d e d' b Hs HL Hb Hx. assert (He : exists oo, e_op e = OpRun oo).
  { destruct (se_cases P d e d' Hs) as (d1 & _ & HA & [(oo & Eo & _)|(_ & Ea & _)]); [eauto|rewrite Ea in Hb; destruct Hb]. }
  destruct He as [oo Eo].
  destruct (se_parts P d e d' oo Hs Eo HL) as (d1 & Hd & [(E & _)|[(_ & _ & q & E & _)|(_ & _ & a & d2 & r & Hi & Hin & H)]]).
  { rewrite E in Hb. destruct Hb. }
  { rewrite E in Hb. destruct Hb as [<-|[]]. discriminate Hx. }
  destruct H as [(Ea & _)|(b' & -> & Ea & Ho & Hoe)]; rewrite Ea in Hb; destruct Hb as [<-|Hb].
  1: rewrite (ilab_sends (se_shape P) _ _ _ _ Hi) in Hx; discriminate.
  1: destruct Hb.
  1: rewrite (ilab_sends (se_shape P) _ _ _ _ Hi) in Hx; discriminate.
  destruct Hb as [<-|[]]. exists a, d2, d1.
  destruct (ilab_io (se_shape P) _ _ _ _ Hi) as (ev & Hst & _).
  splits; auto.
  - exact (ilab_keep (se_shape P) _ _ _ _ Hi).
  - destruct Hin as (_ & _ & Hin). destruct a; try (destruct Hin as (_ & _ & _ & _ & _ & X & _); rewrite X; reflexivity).
    destruct Hin as ((_ & _ & _ & _ & _ & _ & _ & _ & _ & X & _) & _). apply X.
  - destruct Hin as (_ & _ & Hin). destruct a; try (destruct Hin as (_ & _ & _ & _ & _ & X & _); rewrite X; reflexivity).
    destruct Hin as ((_ & _ & _ & _ & _ & _ & _ & _ & _ & X & _) & _). apply X.
  - exists ev. exact Hst.
  - exact (ilab_tx (se_shape P) _ _ _ _ Hi).
Qed.

(** Each command is one of the documented ones with the configured values, and
    goes out whole if the transmit buffer has room for it. *)
Theorem se_commands : forall P d e d' cmd q, se_step P d e d' -> fLock (fl d) = false -> In (aCommand cmd q) (e_acts e) ->
  se_known P d cmd /\ length q <= length cmd /\ (txav (io d) + length cmd <= txsz (io d) -> q = cmd).
Proof.
  intros P d e d' cmd q Hs HL Hb. destruct (se_sent P d e d' _ Hs HL Hb eq_refl) as (a & dm & d1 & _ & _ & _ & Ho & _ & _ & K & (KS & KP) & (ev & Hst) & T).
  inversion Ho as [|y c q' Hn I1 Hsp I2 Hq Hq2 Hne Hsay| | |]; subst. split; [|split; [exact Hq|]].
  - destruct K as (_ & K1 & _ & K2 & K3 & K4). cbn [during set_io typ host port rbuf] in *. unfold se_known.
    destruct Hsay as [(_ & -> & _)|[(Hi & -> & _)|[(c & Hc & -> & _)|(_ & _ & n & -> & N1 & N2 & N3 & N4 & _)]]].
    + left. reflexivity.
    + right. left. split; [|reflexivity]. unfold se_mac_request in Hi. destruct (char_signed P); [|reflexivity]. exfalso.
      destruct (emac (ext dm)) as [|c0 [|c1 t]]; try discriminate Hi. cbn [negb] in Hi. rewrite andb_false_r in Hi. discriminate Hi.
    + right. right. left. exists (sst dm), c. rewrite <- KS, <- KP, <- K2, <- K3, <- K4. auto.
    + right. right. right. exists n. rewrite <- K1. splits; try lia. reflexivity.
  - intro R. apply Hq2. pose proof (ioeff_av _ _ _ _ I1) as [_ A]. cbn [length] in A. rewrite (ioeff_txsz _ _ _ _ I1), (sstep_txsz _ _ _ Hst).
    change (txsz (io (during (e_sch e) d))) with (txsz (io d)). lia.
Qed.

(** The open command names the configured host, port and type, the command to
    join the network its name and password. *)
Theorem se_open_command : forall P d e d' cmd q, se_step P d e d' -> fLock (fl d) = false -> In (aCommand cmd q) (e_acts e) ->
  prefixb (bs "AT+CIPSTART") cmd = true -> typ d = TCP \/ typ d = UDP \/ typ d = SSL ->
  cmd = bs "AT+CIPSTART=" ++ quoted (if (typ d =? TCP)%Z then bs "TCP" else if (typ d =? UDP)%Z then bs "UDP" else bs "SSL") ++ bs "," ++
    quoted (text (host d)) ++ bs "," ++ dec (port d) ++ [CR; LF].
Proof.
  intros P d e d' cmd q Hs HL Hin Hp Ht. destruct (se_commands P d e d' cmd q Hs HL Hin) as ([->|[(_ & ->)|[(s & c & Hc & ->)|(n & _ & _ & ->)]]] & _); try discriminate Hp.
  unfold se_command in Hc. destruct s; try discriminate Hc; apply some_eq in Hc; subst c; try discriminate Hp.
  unfold se_type, quoted. destruct Ht as [->|[->| ->]]; cbn [Z.eqb TCP UDP SSL Pos.eqb]; repeat rewrite <- app_assoc; reflexivity.
Qed.
Theorem se_join_command : forall P d e d' cmd q, se_step P d e d' -> fLock (fl d) = false -> In (aCommand cmd q) (e_acts e) ->
  prefixb (bs "AT+CWJAP=") cmd = true -> cmd = bs "AT+CWJAP=" ++ quoted (text (ssid (ext d))) ++ bs "," ++ quoted (text (passwd (ext d))) ++ [CR; LF].
Proof.
  intros P d e d' cmd q Hs HL Hin Hp. destruct (se_commands P d e d' cmd q Hs HL Hin) as ([->|[(_ & ->)|[(s & c & Hc & ->)|(n & _ & _ & ->)]]] & _); try discriminate Hp.
  unfold se_command in Hc. destruct s; try discriminate Hc; apply some_eq in Hc; subst c; try discriminate Hp.
  unfold quoted. repeat rewrite <- app_assoc. reflexivity.
Qed.

(** ** Receiving *)

(** The reply to AT+CIPRECVDATA up to the separator in front of the payload. *)
Definition se_payload (L : bytes) : bool := se_data REWaitCiprecvdata L.

(** [xe_may]: what the modem may hold, and the number of bytes announced and not
    read yet.  The number of a notice "+IPD," counts from the moment the
    connection is open, which the actions do not show, so that both possibilities
    are kept; [xe_ask]: AT+CIPRECVDATA was not answered; [xe_type]: the type of
    the connection, once it was set. *)
Record rxlogE := mkRxE { xe_may : list (Z * Z); xe_ask : bool; xe_type : option Z }.
Definition rxE_notice (t : option Z) (n : Z) (l : list (Z * Z)) : list (Z * Z) :=
  flat_map (fun p => p :: match t with
    | Some z => if (z =? TCP)%Z then [(u64 n, snd p)] else [(fst p, u64 (snd p + n))]
    | None => [(u64 n, snd p); (fst p, u64 (snd p + n))]
    end) l.
Definition rxE_act (P : plat) (acc : rxlogE) (a : act) : rxlogE :=
  match a with
  | aCommand cmd _ => mkRxE (xe_may acc) (prefixb (bs "AT+CIPRECVDATA=") cmd) (xe_type acc)
  | aLine _ L =>
      if xe_ask acc && se_payload L then
        let k := i32 (number P (skipn 13 L)) in
        mkRxE (map (fun p => (u64 (fst p - k), u64 (snd p + k))) (xe_may acc)) false (xe_type acc)
      else if prefixb (bs "+IPD") L then mkRxE (rxE_notice (xe_type acc) (i32 (number P (skipn 5 L))) (xe_may acc)) (xe_ask acc) (xe_type acc)
      else acc
  | aReceive tk => mkRxE (map (fun p => (fst p, 0%Z)) (xe_may acc)) (xe_ask acc) (xe_type acc)
  | aDiscard _ tk => mkRxE (map (fun p => (0%Z, (snd p - Z.of_nat (length tk))%Z)) (xe_may acc)) (xe_ask acc) (xe_type acc)
  | aReset _ => mkRxE [(0%Z, 0%Z)] false (xe_type acc)
  | _ => acc
  end.
Definition rxE_call (acc : rxlogE) (e : ent) : rxlogE :=
  match e_op e with
  | OpSetHostPort _ _ t => mkRxE (xe_may acc) (xe_ask acc) (Some t)
  | OpResetStates => mkRxE [(0%Z, 0%Z)] false (xe_type acc)
  | _ => acc
  end.
Definition rxE_zero : rxlogE := mkRxE [(0%Z, 0%Z)] false None.
Definition rxE_log (P : plat) (tr : list ent) : rxlogE := fold_left (reading (rxE_act P) rxE_call) tr rxE_zero.

Definition se_rx (acc : rxlogE) (d : dv) : Prop :=
  In (toReceive d, toRead d) (xe_may acc) /\ (xe_ask acc = true <-> rst d = REWaitCiprecvdata) /\ se_typed (xe_type acc) d.

Lemma se_says_ask : forall P d cmd d', se_says P d cmd d' -> prefixb (bs "AT+CIPRECVDATA=") cmd = true <-> rst d' = REWaitCiprecvdata.
Proof.
  intros P d cmd d' H. destruct H as [(_ & -> & (_ & _ & ->))|[(Hi & -> & (_ & _ & ->))|[(c & Hs & -> & (_ & _ & ->))|(_ & (_ & _ & ->) & n & -> & _)]]].
  - split; discriminate.
  - split; discriminate.
  - split; [|discriminate]. unfold se_command in Hs. destruct (sst d); try discriminate Hs; apply some_eq in Hs; subst c; discriminate.
  - split; reflexivity.
Qed.

Lemma se_rx_fields : forall acc (d d' : dv), toReceive d' = toReceive d -> toRead d' = toRead d -> rst d' = rst d -> typ d' = typ d -> se_rx acc d -> se_rx acc d'.
Proof. intros acc d d' E1 E2 E3 E4. unfold se_rx, se_typed. rewrite E1, E2, E3, E4. auto. Qed.

Lemma rxE_old : forall t n l p, In p l -> In p (rxE_notice t n l).
Proof. intros t n l p H. unfold rxE_notice. apply in_flat_map. exists p. split; [exact H|left; reflexivity]. Qed.
Lemma rxE_new : forall t n l w u ty, In (w, u) l -> (forall z, t = Some z -> ty = z) ->
  In (if (ty =? TCP)%Z then (u64 n, u) else (w, u64 (u + n))) (rxE_notice t n l).
Proof.
  intros t n l w u ty H Ht. unfold rxE_notice. apply in_flat_map. exists (w, u). split; [exact H|]. right. cbn [fst snd].
  destruct t as [z|]; [rewrite (Ht z eq_refl); destruct (z =? TCP)%Z; left; reflexivity|]. destruct (ty =? TCP)%Z; [left|right; left]; reflexivity.
Qed.

Lemma se_data_payload : forall r L, r <> REWaitCiprecvdata -> se_data r L = false.
Proof. intros r L H. unfold se_data, se_header. destruct r; try (apply andb_false_r). contradiction. Qed.

Theorem se_rx_history : forall P d0 tr d, se_fresh False d0 -> se_hist P d0 tr d -> se_rx (rxE_log P tr) d.
Proof.
  intros P d0 tr d HF Hh. unfold rxE_log.
  apply (hist_ghost _ _ _ _ _ (se_contract False P) _ se_rx (rxE_act P) rxE_call (fun _ => True)) with (d := d0); auto.
  - intros a d1 q d2 (_ & _ & K) _ (_ & _ & (_ & _ & _ & Kt & _) & _ & _ & R1 & R2 & _) (_ & R3 & _). cbn [rxE_act]. unfold se_rx, se_typed. cbn [xe_may xe_ask xe_type]. rewrite R1, R2, R3, Kt. splits; [left; reflexivity|split; discriminate|exact K].
  - intros a d1 r d2 b K Hl ((_ & _ & Hnp) & _ & Hx). assert (Kt : typ d2 = typ d1) by (inversion Hl; match goal with H : keep d1 d2 |- _ => apply H end).
    destruct b as [q|tk|tk1 tk2|tk L| |cmd q|n q|q|tk]; try (inversion Hl; fail); cbn [rxE_act].
    + destruct Hx as (_ & X & _). inversion Hl. eapply se_rx_fields; eauto.
    + destruct Hx as (_ & X & _). destruct K as (K1 & K2 & K3). unfold se_rx, se_typed. cbn [xe_may xe_ask xe_type]. rewrite X, Kt. splits; auto.
      apply (in_map (fun p => (0%Z, (snd p - Z.of_nat (length tk2))%Z))) in K1. cbn [fst snd] in K1. inversion Hl. congruence.
    + assert (Hwl : se_whole d1 L) by (inversion Hl; assumption). destruct K as (K1 & K2 & K3).
      destruct Hx as [_ Hx]. apply se_line_effect in Hx; [|exact Hnp|exact Hwl]. destruct Hx as [(_ & _ & Hx) _].
      assert (Hpc : se_payload L = true -> prefixb (bs "+CIPRECVDATA") L = true) by (unfold se_payload, se_data; intro H; apply andb_true_iff in H as [_ H]; exact (se_header_prefix _ _ H)).
      destruct (se_is_error L) eqn:Er.
      * assert (Hp : se_payload L = false /\ prefixb (bs "+IPD") L = false).
        { unfold se_is_error in Er. split; [destruct (se_payload L); [|reflexivity]; specialize (Hpc eq_refl)|]; (apply orb_true_iff in Er as [Er|Er]; apply prefixb_spec in Er as [t ->]); reflexivity || discriminate Hpc. }
        destruct Hp as [-> ->]. rewrite andb_false_r. destruct Hx as (_ & _ & X1 & _ & X2 & X3 & _). unfold se_rx, se_typed. rewrite X1, X2, X3, Kt. auto.
      * destruct Hx as (_ & X1 & _ & _ & X2 & X3 & _).
        assert (Hk3 : se_typed (xe_type a) d2) by (unfold se_typed; rewrite Kt; exact K3).
        destruct (xe_ask a) eqn:Ea.
        -- assert (Ew : rst d1 = REWaitCiprecvdata) by (apply K2; reflexivity). rewrite Ew in X1, X2, X3. unfold se_takes_rssi, se_takes_mac in X1. rewrite Ew in X1. rewrite !orb_false_r in X1. cbn [andb].
           fold (se_payload L) in X1, X2, X3. destruct (se_payload L) eqn:Ep.
           ++ unfold se_rx. cbn [xe_may xe_ask xe_type]. rewrite X1, X2, X3. splits; [|split; discriminate|exact Hk3].
              apply (in_map (fun p => (u64 (fst p - i32 (number P (skipn 13 L))), u64 (snd p + i32 (number P (skipn 13 L)))))) in K1. exact K1.
           ++ destruct (prefixb (bs "+IPD") L); unfold se_rx; cbn [xe_may xe_ask xe_type]; rewrite ?Ea, X1, X2, X3; (split; [|split; [tauto|exact Hk3]]).
              ** rewrite andb_true_r. destruct (10 <=? se_rank (sst d1)); cbn [andb]; [|apply rxE_old; exact K1].
                 pose proof (rxE_new (xe_type a) (i32 (number P (skipn 5 L))) (xe_may a) _ _ (typ d1) K1 (fun z H => K3 z H)) as G. destruct (typ d1 =? TCP)%Z; exact G.
              ** rewrite andb_false_r. cbn [andb]. exact K1.
        -- assert (Er1 : rst d1 <> REWaitCiprecvdata) by (intro E; apply K2 in E; discriminate).
           rewrite (se_data_payload _ _ Er1) in X1, X2, X3. cbn [andb].
           assert (Er2 : rst d2 <> REWaitCiprecvdata) by (rewrite X1; destruct (_ || _ || _); [discriminate|exact Er1]).
           destruct (prefixb (bs "+IPD") L); unfold se_rx; cbn [xe_may xe_ask xe_type]; rewrite ?Ea, X2, X3; (split; [|split; [split; [discriminate|contradiction]|exact Hk3]]).
           ++ rewrite andb_true_r. destruct (10 <=? se_rank (sst d1)); cbn [andb]; [|apply rxE_old; exact K1].
              pose proof (rxE_new (xe_type a) (i32 (number P (skipn 5 L))) (xe_may a) _ _ (typ d1) K1 (fun z H => K3 z H)) as G. destruct (typ d1 =? TCP)%Z; exact G.
           ++ rewrite andb_false_r. cbn [andb]. exact K1.
  - intros e a d1 d2 b _ K Hl Hx _ _ _. destruct (se_out_effect _ _ _ _ Hl Hx) as (_ & _ & E2).
    assert (Kt : typ d2 = typ d1) by (inversion Hl; first [assumption | match goal with H : keep d1 d2 |- _ => apply H end]).
    destruct b as [q|tk|tk1 tk2|tk line| |cmd q|n q|q|tk]; try (inversion Hl; fail); cbn [rxE_act].
    + inversion Hl. eapply se_rx_fields; eauto.
    + destruct K as (K1 & K2 & K3). unfold se_rx, se_typed. cbn [xe_may xe_ask xe_type]. rewrite Kt. inversion Hl. splits; [congruence|exact (se_says_ask _ _ _ _ E2)|exact K3].
    + inversion Hl. eapply se_rx_fields; eauto.
    + assert (E3 : rst d1 = REOk) by (apply se_not_waiting; inversion Hl; assumption). rewrite <- E3 in E2. inversion Hl. eapply se_rx_fields; eauto.
    + assert (E3 : rst d1 = REOk) by (apply se_not_waiting; inversion Hl; assumption). destruct K as (K1 & K2 & K3). rewrite <- E3 in E2. unfold se_rx, se_typed. cbn [xe_may xe_ask xe_type]. rewrite E2, Kt.
      split; [|split; [exact K2|exact K3]]. apply (in_map (fun p => (fst p, 0%Z))) in K1. cbn [fst snd] in K1. inversion Hl. congruence.
  - intros e [m ak t] d1 d2 _ Hg HI K Hc Hn. destruct (call_delta _ _ _ _ _ (se_contract False P) e d1 d2 HI Hg Hc Hn) as [_ [Hr|[R _]]].
    + destruct Hr as (Hnr & _ & _ & T1 & T2 & _ & _ & T3 & _ & _ & _ & _ & _ & _ & _ & (_ & _ & _ & _ & _ & _ & Hf & _)). unfold rxE_call.
      destruct (e_op e) eqn:Eq; try discriminate Hnr; try (destruct Hf as [(Hf & _)|(x1 & x2 & x3 & Hf)]; [|discriminate Hf]; eapply se_rx_fields; eauto).
      destruct K as (K1 & K2 & K3). cbn [xe_may xe_ask xe_type] in *. unfold se_rx. cbn [xe_may xe_ask xe_type]. rewrite T1, T2, T3. splits; auto.
      destruct Hc as [_ Hc]. cbn [d_call] in Hc. injection Hc as _ <-. intros z Ez. cbn. congruence.
    + pose proof Hc as Hc'. rewrite R in Hc'. destruct Hc' as (_ & _ & _ & Hc'). destruct (se_reset_exact False P d1 d2 HI Hc') as (y & -> & _).
      destruct K as (_ & _ & K). unfold rxE_call. rewrite R. unfold se_rx. cbn. split; [left; reflexivity|split; [split; discriminate|exact K]].
  - apply Forall_forall. auto.
  - destruct HF as (_ & _ & _ & F2 & _ & _ & _ & _ & _ & _ & _ & _ & _ & F3 & F4 & _). unfold se_rx, rxE_zero. cbn [xe_may xe_ask xe_type]. rewrite F2, F3, F4. splits; [left; reflexivity|split; discriminate|intros z Ez; discriminate Ez].
Qed.
