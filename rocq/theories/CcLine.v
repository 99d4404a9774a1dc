(** What single reply lines of the CC1352P7 driver do. *)
From Coq Require Import String Ascii ZArith List Bool Arith Lia ZifyBool ZifyNat.
From Verif Require Import Base QueueSpec LineSpec SerialSpec Ring RingProofs LineRing LineRingProofs Serial SerialProofs
  SerStep TaskMacros CStr CStrProofs Dev DevProofs SimDev SimProofs SimSpec SimParse SimLog Sym DrvStep DrvCommon DrvRun DrvHist
  Espressif Cc1352 CcSpec CcProofs CcCtl CcCtlIn CcRun AtLine CcHist CcThms CcMore.
Import ListNotations.
Local Open Scope nat_scope.
Ltac Zify.zify_post_hook ::= Z.div_mod_to_equations.
Local Notation dv := (dev ccsend ccreply ccx).
Local Notation ent := (@entry ccop).

(** Lines that end the command in error. *)
Definition sc_refused (d : dv) (L : bytes) : bool :=
  prefixb (bs "ERROR") L || ((5 <=? sc_rank (sst d)) && prefixb (bs "SEND FAIL") L).
(** The reply to AT+CIPRECVDATA. *)
Definition sc_data (d : dv) (L : bytes) : bool := match rst d with RCParseCiprecvdata => prefixb (bs "+CIPRECVDATA") L | _ => false end.
(** A line taken as MAC address. *)
Definition sc_takes_mac (d : dv) (L : bytes) : bool := match rst d with RCCsq | RCReqMac => prefixb mac_lit L | _ => false end.
Definition sc_takes_rssi (d : dv) (L : bytes) : bool := match rst d with RCCsq => prefixb (bs "+CSQ:") L | _ => false end.
(** The address: what follows the opening quote, up to the closing one, at most
    23 characters. *)
Definition mac_text (L : bytes) : bytes := firstn 23 (upto DQ (cbody (skipn 12 L))).

(** The state after the line [L]. *)
Definition sc_effect (P : plat) (L : bytes) (d d' : dv) : Prop :=
  if sc_refused d L then
    rssi d' = rssi d /\ ext d' = ext d /\ rst d' = rst d /\ sst d' = sst d /\ toReceive d' = toReceive d /\ toRead d' = toRead d /\
    fData (fl d') = fData (fl d) /\ fIp (fl d') = fIp (fl d) /\ wait d' = None /\ fReset (fl d') = true /\ cst d' = csGeneralError
  else
    let v := i32 (number P (skipn 13 L)) in
    let up := 5 <=? sc_rank (sst d') in
    sst d' = (if sc_data d L then SCReceiving else sst d) /\
    rst d' = (if sc_data d L || sc_takes_rssi d L || sc_takes_mac d L then RCOk else rst d) /\
    rssi d' = (if sc_takes_rssi d L then i16 (number P (skipn 5 L)) else rssi d) /\
    (if sc_takes_mac d L then str_body (cmac (ext d')) = mac_text L else ext d' = ext d) /\
    toRead d' = (if sc_data d L then u64 (toRead d + v) else toRead d) /\
    toReceive d' = (if sc_data d L then u64 (toReceive d - v)
                    else if up && prefixb (bs "+IPD") L then u64 (number P (skipn 5 L)) else toReceive d) /\
    fData (fl d') = (if up && prefixb (bs "+IPD") L then true else fData (fl d)) /\
    fIp (fl d') = (if up && prefixb (bs "CLOSED") L then false else fIp (fl d)) /\
    wait d' = (match wait d with Some w => if prefixb w L then None else wait d | None => None end) /\
    fReset (fl d') = fReset (fl d) /\ cst d' = cst d.

Lemma stored_quoted : forall s n r t, str_body (firstn n (upto DQ (s ++ NUL :: r)) ++ NUL :: t) = firstn n (upto DQ (cbody s)).
Proof.
  induction s as [|c s IH]; intros n r t.
  - cbn [app upto]. change (Ascii.eqb NUL DQ) with false. cbn iota. destruct n; reflexivity.
  - unfold cbody. cbn [app upto str_body]. destruct (Ascii.eqb c NUL) eqn:En.
    + apply Ascii.eqb_eq in En. subst c. change (Ascii.eqb NUL DQ) with false. change (Ascii.eqb NUL "000"%char) with true. cbn iota.
      destruct n; reflexivity.
    + change (Ascii.eqb c "000"%char) with (Ascii.eqb c NUL). rewrite En. cbn iota. cbn [upto]. destruct (Ascii.eqb c DQ); [destruct n; reflexivity|].
      destruct n; [reflexivity|]. cbn [firstn app str_body]. change (Ascii.eqb c "000"%char) with (Ascii.eqb c NUL). rewrite En. f_equal. apply IH.
Qed.

(** Behind a literal that does not end a line there is another character. *)
Lemma whole_more : forall (L lit : bytes) c, whole_line L -> c <> LF -> c <> GT -> length (lit ++ [c]) < 60 -> prefixb (lit ++ [c]) L = true ->
  exists x t, L = (lit ++ [c]) ++ x :: t.
Proof.
  intros L lit c (body & e & E & He & _) Hc1 Hc2 Hlen Hp. apply prefixb_spec in Hp as [t Ht]. destruct t as [|x t]; [|eauto].
  exfalso. rewrite app_nil_r in Ht. pose proof Ht as Ht'. rewrite E in Ht. apply app_inj_tail in Ht as [_ Ht]. subst e. unfold at_end, aeqb in He. rewrite Ht' in He.
  apply orb_true_iff in He as [He|He].
  - apply orb_true_iff in He as [He|He]; apply Ascii.eqb_eq in He; contradiction.
  - apply Nat.eqb_eq in He. unfold LINE_MAX_LENGTH in He. lia.
Qed.

Section OneLine.
Variables (P : plat) (L r : bytes) (d : dv).
Hypothesis HL : lbuf d = L ++ NUL :: r.
Hypothesis Hlen : length (L ++ NUL :: r) = 61.
Hypothesis HW : whole_line L.

Lemma ciprecvdata_at : sc_parse_ciprecvdata P d =
  Ok (if prefixb (bs "+CIPRECVDATA") L then
        let v := i32 (number P (skipn 13 L)) in
        (true, on_line false (set_toRead (u64 (toRead d + v)) (set_toReceive (u64 (toReceive d - v)) d)))
      else (false, d)).
Proof.
  unfold sc_parse_ciprecvdata. rewrite (lstarts_at L r d HL Hlen) by (reflexivity || (cbn; lia)). cbn [bind].
  destruct (prefixb (bs "+CIPRECVDATA") L) eqn:E; [|reflexivity].
  destruct (whole_more L (bs "+CIPRECVDAT") "A"%char HW ltac:(discriminate) ltac:(discriminate) ltac:(cbn; lia) E) as (x & t & Et).
  replace (skipn 13 (lbuf d)) with (t ++ NUL :: r) by (rewrite HL, Et; reflexivity). rewrite strtol_line.
  replace (skipn 13 L) with t by (rewrite Et; reflexivity). reflexivity.
Qed.

Lemma cc_csq_at : sc_parse_csq P d =
  Ok (if prefixb (bs "+CSQ:") L then (true, set_rssi (i16 (number P (skipn 5 L))) d) else (false, d)).
Proof.
  unfold sc_parse_csq. rewrite (lstarts_at L r d HL Hlen) by (reflexivity || (cbn; lia)). cbn [bind].
  destruct (prefixb (bs "+CSQ:") L) eqn:E; [|reflexivity].
  rewrite (skip_at L r d HL Hlen (bs "+CSQ:") E : skipn 5 (lbuf d) = _), strtol_line. reflexivity.
Qed.

Lemma cc_mac_at : length (cmac (ext d)) = 24 -> exists d', sc_parse_mac d = Ok d' /\
  if prefixb mac_lit L then d' = set_rst RCOk (set_cmac (cmac (ext d')) d) /\ str_body (cmac (ext d')) = mac_text L else d' = d.
Proof.
  intro Hm. assert (Hp : parsed (lbuf d)) by (rewrite HL; split; [exact Hlen|apply in_or_app; right; left; reflexivity]).
  assert (Hpl : prefixb mac_lit (lbuf d) = prefixb mac_lit L) by (rewrite HL; apply prefixb_line; apply nulfree_ok; reflexivity).
  pose proof (wp_sc_mac False d (fun d' => if prefixb mac_lit L then d' = set_rst RCOk (set_cmac (cmac (ext d')) d) /\ str_body (cmac (ext d')) = mac_text L else d' = d) Hp Hm) as H.
  rewrite Hpl in H. destruct (sc_parse_mac d) as [d'|].
  - exists d'. split; [reflexivity|]. apply H; intro E; rewrite E; [reflexivity|]. split; [reflexivity|].
    cbn [ext set_rst set_cmac set_ext cmac]. unfold mac_copy. rewrite (HL : lbuf d = _).
    apply prefixb_spec in E as [t E]. rewrite E, <- app_assoc. unfold mac_text. 
    change (skipn 12 (mac_lit ++ t ++ NUL :: r)) with (t ++ NUL :: r). change (skipn 12 (mac_lit ++ t)) with t. apply stored_quoted.
  - exfalso. apply H; intro E; rewrite E; [reflexivity|]. split; [reflexivity|].
    cbn [ext set_rst set_cmac set_ext cmac]. unfold mac_copy. rewrite (HL : lbuf d = _).
    apply prefixb_spec in E as [t E]. rewrite E, <- app_assoc. unfold mac_text. 
    change (skipn 12 (mac_lit ++ t ++ NUL :: r)) with (t ++ NUL :: r). change (skipn 12 (mac_lit ++ t)) with t. apply stored_quoted.
Qed.

Lemma unsol_at : sc_unsolicited P d =
  Ok (if prefixb (bs "+IPD") L then on_data true (set_toReceive (u64 (number P (skipn 5 L))) d)
      else if prefixb (bs "CLOSED") L then on_ip false d else d).
Proof.
  unfold sc_unsolicited. assert (Em : lmatch 4 (bs "+IPD,") d = Ok (prefixb (bs "+IPD") L)).
  { rewrite lmatch_eq by first [apply nulfree_ok; reflexivity | (rewrite ?HL, ?Hlen; cbn; lia)].
    change (firstn 4 (bs "+IPD,")) with (bs "+IPD"). rewrite HL, prefixb_line by (apply nulfree_ok; reflexivity). reflexivity. }
  rewrite Em. cbn [bind]. destruct (prefixb (bs "+IPD") L) eqn:E.
  - destruct (whole_more L (bs "+IP") "D"%char HW ltac:(discriminate) ltac:(discriminate) ltac:(cbn; lia) E) as (x & t & Et).
    replace (skipn 5 (lbuf d)) with (t ++ NUL :: r) by (rewrite HL, Et; reflexivity). rewrite strtol_line.
    replace (skipn 5 L) with t by (rewrite Et; reflexivity). reflexivity.
  - rewrite (lstarts_at L r d HL Hlen) by (reflexivity || (cbn; lia)). cbn [bind]. destruct (prefixb (bs "CLOSED") L); reflexivity.
Qed.
End OneLine.

Lemma prefix_clash : forall a b L, prefixb a L = true -> prefixb b a = false -> prefixb a b = false -> prefixb b L = false.
Proof.
  induction a as [|x a IH]; intros b L H H1 H2; [destruct b; discriminate|].
  destruct L as [|y L]; [discriminate|]. cbn [prefixb] in H. apply andb_true_iff in H as [H0 H]. unfold aeqb in *. apply Ascii.eqb_eq in H0. subst y.
  destruct b as [|z b]; [discriminate|]. cbn [prefixb] in *. unfold aeqb in *. rewrite (Ascii.eqb_sym x z) in H2. destruct (Ascii.eqb z x) eqn:E; [|reflexivity].
  cbn [andb] in *. apply (IH b L); assumption.
Qed.

Theorem sc_line_effect : forall P d ret d' L, sc_handles P d ret d' L -> whole_line L -> sc_effect P L d d' /\ ret = sc_refused d L.
Proof.
  intros P d ret d' L (r & y & Hlen & _ & HI & H) HW.
  set (x := line_at L r y d) in *. assert (HL : lbuf x = L ++ NUL :: r) by reflexivity.
  cut (sc_effect P L x d' /\ ret = sc_refused x L); [intro C; exact C|]. clearbody x. clear y d. rename x into d.
  pose proof HI as ((_ & _ & _ & _ & _ & _ & _ & _ & _ & Hwt & _) & Hcm).
  unfold sc_parse in H. assert (He : sc_is_error d = Ok (sc_refused d L)).
  { unfold sc_is_error, sc_refused. rewrite !(lstarts_at L r d HL Hlen) by (reflexivity || (cbn; lia)). cbn [bind]. destruct (prefixb _ L); [reflexivity|].
    change (sc_rank SCConnected) with 5. destruct (5 <=? _); reflexivity. }
  rewrite He in H. cbn [bind] in H. unfold sc_effect. destruct (sc_refused d L) eqn:HR.
  { injection H as <- <-. splits; reflexivity. }
  assert (Hs : exists d1, sc_standard_reply d = Ok d1 /\
    d1 = set_wait (match wait d with Some w => if prefixb w L then None else wait d | None => None end) d).
  { unfold sc_standard_reply. destruct (wait d) as [w|] eqn:Ew.
    - destruct Hwt as [Hw1 Hw2]. rewrite (lmatch_at L r d HL Hlen) by first [apply nulfree_of; assumption | lia]. cbn [bind].
      destruct (prefixb w L); eexists; (split; [reflexivity|]); [reflexivity|]. destruct d; cbn in *; subst; reflexivity.
    - exists d. split; [reflexivity|]. destruct d; cbn in *; subst; reflexivity. }
  destruct Hs as (d1 & Es & Ed1). rewrite Es in H. cbn [bind] in H.
  assert (HL1 : lbuf d1 = L ++ NUL :: r) by (rewrite Ed1; exact HL).
  assert (Hc1 : length (cmac (ext d1)) = 24) by (rewrite Ed1; exact Hcm).
  assert (Hw1 : wait d1 = (match wait d with Some w => if prefixb w L then None else wait d | None => None end)) by (rewrite Ed1; reflexivity).
  rewrite <- Hw1. clear Hw1.
  assert (G : sst d1 = sst d /\ rst d1 = rst d /\ rssi d1 = rssi d /\ ext d1 = ext d /\ toRead d1 = toRead d /\ toReceive d1 = toReceive d /\ fl d1 = fl d /\ cst d1 = cst d)
    by (rewrite Ed1; splits; reflexivity).
  destruct G as (G1 & G2 & G3 & G4 & G5 & G6 & G7 & G8). unfold sc_data, sc_takes_rssi, sc_takes_mac. rewrite <- G1, <- G2, <- G3, <- G4, <- G5, <- G6, <- G7, <- G8.
  clear He Es Ed1 G1 G2 G3 G4 G5 G6 G7 G8 HR HL HI Hwt Hcm d. rename d1 into d.
  assert (HS : exists d2, sc_special_reply P d = Ok d2 /\ lbuf d2 = lbuf d /\
     sst d2 = (if sc_data d L then SCReceiving else sst d) /\
     rst d2 = (if sc_data d L || sc_takes_rssi d L || sc_takes_mac d L then RCOk else rst d) /\
     rssi d2 = (if sc_takes_rssi d L then i16 (number P (skipn 5 L)) else rssi d) /\
     (if sc_takes_mac d L then str_body (cmac (ext d2)) = mac_text L else ext d2 = ext d) /\
     toRead d2 = (if sc_data d L then u64 (toRead d + i32 (number P (skipn 13 L))) else toRead d) /\
     toReceive d2 = (if sc_data d L then u64 (toReceive d - i32 (number P (skipn 13 L))) else toReceive d) /\
     fData (fl d2) = fData (fl d) /\ fIp (fl d2) = fIp (fl d) /\ wait d2 = wait d /\ fReset (fl d2) = fReset (fl d) /\ cst d2 = cst d).
  { unfold sc_special_reply, sc_data, sc_takes_rssi, sc_takes_mac. destruct (rst d) eqn:Er; cbn [orb].
    - exists d. splits; auto.
    - rewrite (ciprecvdata_at P L r d HL1 Hlen HW). destruct (prefixb (bs "+CIPRECVDATA") L); cbn [bind orb]; eexists; (split; [reflexivity|]); splits; auto.
    - rewrite (cc_csq_at P L r d HL1 Hlen). destruct (prefixb (bs "+CSQ:") L) eqn:Ec; cbn [bind orb].
      + destruct (cc_mac_at L r (set_rst RCOk (set_rssi (i16 (number P (skipn 5 L))) d)) HL1 Hlen Hc1) as (d2 & E1 & E2).
        rewrite (prefix_clash (bs "+CSQ:") mac_lit L Ec eq_refl eq_refl) in *. subst d2. rewrite E1. eexists. split; [reflexivity|]. splits; reflexivity.
      + destruct (cc_mac_at L r d HL1 Hlen Hc1) as (d2 & E1 & E2). rewrite E1. exists d2. split; [reflexivity|].
        destruct (prefixb mac_lit L); [destruct E2 as [E2 E3]|]; [|subst; splits; auto]. rewrite E2. gs. splits; auto.
    - destruct (cc_mac_at L r d HL1 Hlen Hc1) as (d2 & E1 & E2). rewrite E1. exists d2. split; [reflexivity|].
      destruct (prefixb mac_lit L); [destruct E2 as [E2 E3]|]; [|subst; splits; auto]. rewrite E2. gs. splits; auto. }
  destruct HS as (d2 & E2 & Hl2 & S1 & S2 & S3 & S4 & S5 & S6 & S7 & S8 & S9 & S10 & S11). rewrite E2 in H. cbn [bind] in H.
  change (match rst d with RCParseCiprecvdata => prefixb (bs "+CIPRECVDATA") L | _ => false end) with (sc_data d L).
  change (match rst d with RCCsq => prefixb (bs "+CSQ:") L | _ => false end) with (sc_takes_rssi d L).
  change (match rst d with RCCsq | RCReqMac => prefixb mac_lit L | _ => false end) with (sc_takes_mac d L).
  rewrite HL1 in Hl2. change (sc_rank SCConnected) with 5 in H. cbv zeta.
  assert (Hcl : sc_data d L = true -> prefixb (bs "+IPD") L = false /\ prefixb (bs "CLOSED") L = false).
  { unfold sc_data. destruct (rst d); try discriminate. intro K. split; [exact (prefix_clash _ (bs "+IPD") L K eq_refl eq_refl)|exact (prefix_clash _ (bs "CLOSED") L K eq_refl eq_refl)]. }
  destruct (5 <=? sc_rank (sst d2)) eqn:Eu.
  - rewrite (unsol_at P L r d2 Hl2 Hlen HW) in H. cbn [bind] in H.
    destruct (prefixb (bs "+IPD") L) eqn:Ei.
    + assert (Hd : sc_data d L = false) by (destruct (sc_data d L); [destruct (Hcl eq_refl); discriminate|reflexivity]).
      pose proof (prefix_clash (bs "+IPD") (bs "CLOSED") L Ei eq_refl eq_refl) as Ec. rewrite Hd in *.
      injection H as <- <-. gs. rewrite Eu, Ec. cbn [andb]. splits; auto.
    + destruct (prefixb (bs "CLOSED") L); injection H as <- <-; gs; rewrite Eu; cbn [andb]; splits; auto; rewrite S6; destruct (sc_data d L); reflexivity.
  - injection H as <- <-. rewrite Eu. cbn [andb]. splits; auto. 
Qed.
