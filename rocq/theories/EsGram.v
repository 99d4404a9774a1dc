(** The Espressif driver on UDP and SSL connections: the module sends data without being
    asked, as "+IPD,n:" and n bytes. *)
From Coq Require Import String Ascii ZArith List Bool Arith Lia ZifyBool ZifyNat.
From Verif Require Import Base QueueSpec LineSpec SerialSpec Ring RingProofs LineRing LineRingProofs Serial SerialProofs
  SerStep TaskMacros CStr CStrProofs Dev DevProofs SimDev SimProofs SimSpec SimParse SimLog Sym DrvStep DrvCommon DrvRun DrvHist DrvActs DrvStuck DrvHand DrvFetch
  Espressif EsSpec EsFill EsProofs EsCtl EsCtlIn EsRun AtLine EsHist EsThms EsMore EsLine EsReq EsRest EsStuck EsHand EsFetch.
Import ListNotations.
Local Open Scope nat_scope.
Ltac Zify.zify_post_hook ::= Z.div_mod_to_equations.
Local Notation dv := (dev essend esreply espx).
Local Notation ent := (@entry esop).
Local Notation olabE P := (olab re_ok (se_says P) se_tail se_insend false).

(** In operation, not on a TCP connection, with no request for the signal strength or the
    MAC address pending. *)
Definition sg_tuned (P : plat) (d : dv) : Prop :=
  isopen d = true /\ fReset (fl d) = false /\ fLock (fl d) = false /\ rssi d <> INT16_MAX /\ se_mac_request P (emac (ext d)) = false /\ typ d <> TCP.

(** What a line does. *)
Definition sg_hear (P : plat) (L : bytes) (d : dv) : dv :=
  let x := set_wait (se_wait_after L (wait d)) d in
  if prefixb (bs "+IPD") L then on_data true (on_line false (set_toRead (u64 (toRead x + i32 (number P (skipn 5 L)))) x)) else x.
Definition sg_fetches (d : dv) : Prop := rst d = REOk /\ se_rank SEConnected <= se_rank (sst d) /\ typ d <> TCP.

Lemma sg_line_hear : forall P d ret d' L, se_handles P d ret d' L -> se_whole d L -> sg_fetches d -> se_ending L = false ->
  ret = false /\ exists r y, d' = sg_hear P L (line_at L r y d).
Proof.
  intros P d ret d' L (r & y & Hlen & _ & HI & E) Hw [He [Hk Ht]] F. destruct (se_line_long d L Hw) as [H5 H13].
  rewrite (parse_at P L r Hlen H5 H13 (line_at L r y (se_took L d)) eq_refl HI) in E.
  apply ok_eq in E. apply pair_equal_spec in E as [<- <-]. unfold se_ending in F. apply orb_false_iff in F as [F F4]. apply orb_false_iff in F as [F F3]. apply orb_false_iff in F as [F1 F2].
  split; [exact F1|]. exists r, y.
  assert (Hd : se_took L d = d).
  { unfold se_took. destruct Hw as (_ & _ & _ & _ & _ & _ & Hz). unfold se_ends in Hz. rewrite He in *. unfold se_header in Hz. rewrite orb_false_r in Hz. rewrite Hz. reflexivity. }
  rewrite Hd. clear Hd. unfold st_line. rewrite F1. unfold sg_hear. set (x := line_at L r y d). change (wait d) with (wait x) in *. change (rst d) with (rst x) in *.
  assert (Hu : forall z : dv, typ z <> TCP -> st_unsol P L z = if prefixb (bs "+IPD") L then on_data true (on_line false (set_toRead (u64 (toRead z + i32 (number P (skipn 5 L)))) z)) else z).
  { intros z Hz. unfold st_unsol. apply Z.eqb_neq in Hz. rewrite Hz, F3, F4. reflexivity. }
  assert (Hn : forall z : dv, se_nosend z L = false) by (intro z; unfold se_nosend; rewrite F2; apply andb_false_r). rewrite Hn.
  assert (Htx : typ x <> TCP) by exact Ht. assert (Hkx : 10 <= se_rank (sst x)) by exact Hk.
  unfold st_special. change (rst (st_standard L x)) with (rst x). rewrite He. cbv zeta.
  change (sst (st_standard L x)) with (sst x). apply Nat.leb_le in Hkx. rewrite Hkx. rewrite Hu by exact Ht. reflexivity.
Qed.

Lemma sg_turn_none : forall P N d e d', se_step P d e d' -> roomy N d e -> hears None e -> sg_tuned P d -> fDisc (fl d) = false ->
  exists x d1, se_inv x /\ shell d x /\ (fLine (fl d) = true -> rxav (io x) = 0) /\ (fLine (fl d) = false -> rxav (io d) <= rxav (io x)) /\ (e_sch e = [] -> sched (io x) = []) /\ txav (io x) + N <= txsz (io x) /\ rxsz (io x) = rxsz (io d) /\
    se_output P x = Ok d1 /\ d' = set_io (io d') d1 /\ se_put_says e x d1.
Proof.
  intros P N d e d' Hs ((oo & Eo) & Ht) Hn (H1 & H2 & H3 & _) Hdi.
  destruct (se_parts P d e d' oo Hs Eo H3) as (d1 & Hd & [(_ & E & _)|[(_ & E & _)|(_ & _ & a & d2 & r & Hi & (HI & _ & Hx) & Hr)]]); [congruence|congruence|].
  assert (Htx : txav (io d2) <= txav (io d)) by exact (ilab_tx (se_shape P) _ _ _ _ Hi).
  destruct (ilab_io (se_shape P) _ _ _ _ Hi) as (ev & Hst & _).
  assert (Hna : forall tk L, a <> aLine tk L) by (intros tk L ->; apply (Hn tk L); destruct Hr as [[-> _]|(b & _ & -> & _)]; left; reflexivity).
  assert (Hsh : r = false /\ shell d d2 /\ (fLine (fl d) = true -> rxav (io d2) = 0) /\ (fLine (fl d) = false -> rxav (io d) <= rxav (io d2)) /\ act_put a = [] /\ act_payload a = []).
  { destruct Hi as [tk E1 E2 E3 E4 E5 E6 E7 (E8 & E9 & E10 & E11 & E12 & E13) E14 E15 E16 E17 E18 E19 E20 E21 E22 E23 E24|tk1 tk2 E1 E2|tk L]; [|exfalso; change (fDisc (fl d) = true) in E2; congruence|exfalso; eapply Hna; reflexivity].
    splits; auto; [|intro Z; rewrite (E3 Z) in E2; apply ioeff_av in E2; cbn [length] in E2; change (rxav (io (during (e_sch e) d))) with (rxav (io d)) in E2; lia]. clear - E8 E9 E10 E11 E12 E13 E14 E15 E16 E17 E18 E19 E20 E21 E22 E23 E24.
    unfold shell, set_io, set_lbfill, set_lbuf. cbn. change (during (e_sch e) d) with (set_io (mkSys (ser (io d)) (e_sch e) []) d) in *. cbn in *.
    rewrite <- E8, <- E9, <- E10, <- E11, <- E12, <- E13, <- E14, <- E15, <- E16, <- E17, <- E18, <- E19, <- E20, <- E21, <- E22, <- E23, <- E24. destruct d2; reflexivity. }
  destruct Hsh as (-> & Hsh & Hrx & Hrz & Pa & Pb).
  destruct Hr as [(_ & _ & Z)|(b & _ & Ea & Hol & Hox)]; [discriminate Z|]. destruct Hox as (I2 & _ & Eq).
  exists d2, d1. splits; auto.
  - intro Z. destruct Hst as (_ & _ & _ & _ & _ & _ & Hst). apply Hst. exact Z.
  - rewrite (sstep_txsz _ _ _ Hst). change (txsz (io (during (e_sch e) d))) with (txsz (io d)). lia.
  - exact (sstep_rxsz _ _ _ Hst).
  - exact (se_says_puts P d e d' a b d2 d1 Hs (ex_intro _ oo Eo) Ea Pa Pb Hol).
Qed.

Lemma sg_turn_line : forall P N d e d' q, se_step P d e d' -> roomy N d e -> hears (Some q) e -> sg_tuned P d -> sg_fetches d ->
  (forall L, q L -> se_ending L = false) ->
  exists x d1 L, q L /\ shell d x /\ se_inv (sg_hear P L x) /\ fLine (fl d) = true /\ txav (io x) + N <= txsz (io x) /\ rxsz (io x) = rxsz (io d) /\
    se_output P (sg_hear P L x) = Ok d1 /\ d' = set_io (io d') d1 /\ se_put_says e (sg_hear P L x) d1.
Proof.
  intros P N d e d' q Hs ((oo & Eo) & Ht) (tk & L & Hin & HL) (H1 & H2 & H3 & _) He Hq.
  destruct (se_parts P d e d' oo Hs Eo H3) as (d1 & Hd & [(_ & E & _)|[(_ & E & _)|(_ & _ & a & d2 & r & Hi & (HI & _ & Hx) & Hr)]]); [congruence|congruence|].
  assert (Htx : txav (io d2) <= txav (io d)) by exact (ilab_tx (se_shape P) _ _ _ _ Hi).
  destruct (ilab_io (se_shape P) _ _ _ _ Hi) as (ev & Hst & _).
  assert (Ha : a = aLine tk L).
  { destruct Hr as [(Ea & _)|(b & _ & Ea & Hol & _)]; rewrite Ea in Hin; cbn [app] in Hin; destruct Hin as [<-|Hin]; auto; [destruct Hin|].
    destruct Hin as [->|[]]. exfalso. inversion Hol. }
  subst a. destruct Hx as [_ Hx]. pose proof (Hq L HL) as Q1.
  assert (Hln : fLine (fl d) = true) by (inversion Hi; assumption).
  destruct (sg_line_hear P _ r d2 L Hx ltac:(inversion Hi; assumption) He Q1) as (Er & r0 & y & Ed2).
  destruct Hr as [(_ & _ & ->)|(b & _ & Ea & Hol & Hox)]; [discriminate Er|].
  destruct Hox as (I2 & _ & Eq). exists (line_at L r0 y d), d1, L.
  assert (Hio : forall x, io (sg_hear P L x) = io x) by (intro x; unfold sg_hear; repeat match goal with |- context [match ?c with _ => _ end] => destruct c end; reflexivity).
  change (line_at L r0 y (during (e_sch e) d)) with (line_at L r0 y d) in Ed2. rewrite <- Ed2. splits; auto.
  - reflexivity.
  - rewrite <- Hio, <- Ed2, (sstep_txsz _ _ _ Hst). change (txsz (io (during (e_sch e) d))) with (txsz (io d)). lia.
  - rewrite <- Hio, <- Ed2. exact (sstep_rxsz _ _ _ Hst).
  - exact (se_says_puts P d e d' (aLine tk L) b d2 d1 Hs (ex_intro _ oo Eo) Ea eq_refl eq_refl Hol).
Qed.

Definition sg_heard (P : plat) (o : option bytes) (d : dv) : dv := match o with Some L => sg_hear P L d | None => d end.
Lemma sg_turns : forall P N d e d' p, se_step P d e d' -> roomy N d e -> hears p e -> sg_tuned P d -> fDisc (fl d) = false -> sg_fetches d ->
  (forall q L, p = Some q -> q L -> se_ending L = false) ->
  exists o x d1, heard_as p o /\ shell d x /\ se_inv (sg_heard P o x) /\ (o <> None -> fLine (fl d) = true) /\
    (o = None -> fLine (fl d) = true -> rxav (io x) = 0) /\ (o = None -> e_sch e = [] -> sched (io x) = []) /\ txav (io x) + N <= txsz (io x) /\ rxsz (io x) = rxsz (io d) /\
    se_output P (sg_heard P o x) = Ok d1 /\ d' = set_io (io d') d1 /\ se_put_says e (sg_heard P o x) d1.
Proof.
  intros P N d e d' p Hs Hr Hh Hg Hdi Hf Hq. destruct p as [q|].
  - destruct (sg_turn_line P N d e d' q Hs Hr Hh Hg Hf (fun L => Hq q L eq_refl)) as (x & d1 & L & A1 & A2 & A3 & A4 & A5 & A6 & A7 & A8 & A9).
    exists (Some L), x, d1. cbn [sg_heard heard_as]. splits; auto; discriminate.
  - destruct (sg_turn_none P N d e d' Hs Hr Hh Hg Hdi) as (x & d1 & A1 & A2 & A3 & _ & A4 & A5 & A6 & A7 & A8 & A9).
    exists None, x, d1. cbn [sg_heard heard_as]. splits; auto.
Qed.
Lemma sg_hear_hum : forall P L (x : dv), se_hum L -> wait x = None -> sg_hear P L x = x.
Proof.
  intros P L x H Hw. apply se_hum_inv in H as (H0 & H1 & H2 & H3). unfold sg_hear. rewrite H2, Hw. cbn [se_wait_after].
  rewrite <- Hw. apply set_wait_same.
Qed.
Lemma sg_free : forall P N e (x d1 : dv), se_inv x -> se_output P x = Ok d1 -> wait x = None -> rst x = REOk -> sg_tuned P x -> txav (io x) + N <= txsz (io x) -> 20 <= N -> se_put_says e x d1 ->
  exists y, quiet (io x) y /\ se_inv (set_io y x) /\ txav y + N <= txsz y /\ se_machine (set_io y x) = Ok d1 /\ se_put_says e (set_io y x) d1 /\ (sched (io x) = [] -> y = io x).
Proof.
  intros P N e x d1 HI Ho Hw Hr (G1 & G2 & G3 & G4 & G5 & _) Ht HN Hs.
  assert (H : exists y, quiet (io x) y /\ se_machine (set_io y x) = Ok d1 /\ (sched (io x) = [] -> y = io x)).
  { pose proof HI as ((Hwf & _) & Hcm). destruct (isr_point_quiet (io x) Hwf) as (y & E & Q). exists y. split; [exact Q|]. split; [|intro Es; exact (quiet_still _ _ Es E)].
    unfold se_output in Ho. rewrite Hw, Hr in Ho. cbn [re_ok negb] in Ho. unfold d_space, s_space_available in Ho. rewrite E in Ho. cbn [bind] in Ho.
    change (ring_space (lr (stx (ser y)))) with (txsz y - txav y) in Ho.
    destruct (Nat.ltb_spec (txsz y - txav y) 20) as [Hlt|Hge].
    - exfalso. apply quiet_ioeff in Q. pose proof (ioeff_av _ _ _ _ Q) as [_ A]. pose proof (ioeff_txsz _ _ _ _ Q). cbn [length] in A. lia.
    - change (rssi (set_io y x)) with (rssi x) in Ho.
      destruct (Z.eqb_spec (rssi x) INT16_MAX); [contradiction|]. cbn [andb] in Ho.
      unfold se_send_mac in Ho. change (ext (set_io y x)) with (ext x) in Ho. change (fl (set_io y x)) with (fl x) in Ho.
      unfold se_mac_request in G5. destruct (emac (ext x)) as [|c0 [|c1 cm]]; try discriminate Hcm. cbn [rd nth_error bind] in Ho.
      assert (Hc : char_is_ff P c1 && aeqb c0 NUL && fLine (fl x) = false).
      { unfold char_is_ff, aeqb. destruct (Ascii.eqb c0 NUL); cbn [andb] in *; [|rewrite andb_false_r; reflexivity].
        rewrite G5. reflexivity. }
      rewrite Hc in Ho. exact Ho. }
  destruct H as (y & Q & Hm & Hst).
  pose proof (quiet_ioeff _ _ Q) as QI. pose proof (ioeff_av _ _ _ _ QI) as [_ A]. pose proof (ioeff_txsz _ _ _ _ QI) as A2. cbn [length] in A.
  exists y. splits; auto; [split; [apply dok_quiet; [apply HI|exact Q]|apply HI]|lia|].
  intros t q Hi. apply Hs. exact (ioeff_trans _ _ _ _ _ _ _ QI Hi).
Qed.

(** *** Waiting for data, and receiving it *)
Definition sg_keep (P : plat) (d x : dv) : Prop :=
  sg_tuned P x /\ (fIp (fl x), fDisc (fl x)) = (true, false) /\ ip_is_connected x = true /\
  (ext x, wbuf x, typ x, host x, port x) = (ext d, wbuf d, typ d, host d, port d) /\
  (sst x = SEConnected \/ sst x = SEReceiving) /\ rst x = REOk /\ wait x = None /\ toReceive x = 0%Z.
(** [n] bytes are to come; [b]: none are. *)
Definition sg_on (P : plat) (d : dv) (n : Z) (b : bool) (r : ring ascii) (x : dv) : Prop :=
  sg_keep P d x /\ toRead x = n /\ fLine (fl x) = b /\ rbuf x = r /\ (b = false -> sst x = SEReceiving \/ fData (fl x) = true).
Lemma sg_on_shell : forall P d n b r x x', sg_on P d n b r x -> shell x x' -> sg_on P d n b r x'.
Proof. intros P d n b r x x' H ->. exact H. Qed.

Lemma sg_idle : forall P d r (x d1 : dv), sg_on P d 0 true r x -> avail (wbuf d) = 0 -> se_machine x = Ok d1 -> io d1 = io x /\ sg_on P d 0 true r d1.
Proof.
  intros P d r x d1 ((G & F & I & E & S & Cr & Cw & Cn) & Cm & Cl & R & _) Ha Hm. injection F as F1 F2. injection E as E1 E2 E3 E4 E5.
  assert (Ht : (typ x =? TCP)%Z = false) by (apply Z.eqb_neq, G).
  unfold se_machine in Hm. destruct S as [S|S]; rewrite S in Hm.
  - unfold se_connected in Hm. rewrite E2, Ha in Hm. cbn [Nat.ltb Nat.leb] in Hm. destruct (fData (fl x)) eqn:Fd.
    + cbv zeta in Hm. change (typ (set_cst csReceiving _)) with (typ x) in Hm. rewrite Ht in Hm. apply ok_inj in Hm. subst d1. split; [reflexivity|].
      split; [|splits; auto; discriminate]. unfold sg_keep. splits; try reflexivity; try assumption; cbn; try congruence. now right.
    + unfold at_handle_disconnect in Hm. cbn [fl set_cst] in Hm. rewrite F1, F2 in Hm. cbn [snd] in Hm.
      apply ok_inj in Hm. subst d1. split; [reflexivity|]. split; [|splits; auto; discriminate]. unfold sg_keep. splits; try reflexivity; try assumption; cbn; try congruence. now left.
  - rewrite Cm, Cn in Hm. cbn [Z.ltb Z.compare] in Hm. apply ok_inj in Hm. subst d1. split; [reflexivity|].
    split; [|splits; auto; discriminate]. unfold sg_keep. splits; try reflexivity; try assumption; cbn; try congruence. now left.
Qed.

Lemma sg_takes : forall P d n r (x : dv), se_inv x -> sg_on P d n false r x -> avail (wbuf d) = 0 -> (0 < n)%Z -> ring_ok r -> (Z.of_nat (avail r) + n <= Z.of_nat (rsize r))%Z ->
  wp True (se_machine x) (fun d1 =>
    (ioeff (io x) (io d1) [] [] /\ sg_on P d n false r d1 /\ (sst x = SEReceiving -> (Z.of_nat (rxav (io d1)) < n)%Z) /\ sst d1 = SEReceiving) \/
    (exists tk r', ioeff (io x) (io d1) tk [] /\ Z.of_nat (length tk) = n /\ ring_ok r' /\ contents r' = contents r ++ tk /\ rsize r' = rsize r /\ sg_on P d 0 true r' d1)).
Proof.
  intros P d n r x HI H Ha Hm Hok Hfit. pose proof H as ((G & F & I & E & S & Cr & Cw & Cn) & Cm & Cl & R & Cd).
  injection F as F1 F2. injection E as E1 E2 E3 E4 E5.
  assert (Ht : (typ x =? TCP)%Z = false) by (apply Z.eqb_neq, G).
  pose proof HI as ((Hw & _ & _ & Hrw & Hrs & _) & _).
  unfold se_machine. destruct S as [S|S]; rewrite S.
  - destruct (Cd eq_refl) as [Z|Fd]; [congruence|]. unfold se_connected. rewrite E2, Ha, Fd. cbn [Nat.ltb Nat.leb].
    cbv zeta. change (typ (set_cst csReceiving _)) with (typ x). rewrite Ht. cbn [wp]. left. split; [apply ioeff_refl; exact Hw|].
    split; [|split; [congruence|reflexivity]]. split; [|splits; auto]. unfold sg_keep. splits; try reflexivity; try assumption; cbn; try congruence. now right.
  - rewrite Cm. destruct (Z.ltb_spec 0 n); [|lia]. apply wp_bind. rewrite <- Cm in *. apply wp_receive; [exact Hw|exact Hrw|exact Hrs|lia| |].
    + intros y Hy Hlt. cbn [wp]. left. splits; [exact Hy|exact H|intros _; exact Hlt|exact S].
    + intros y tk r' Hy Hl Hw' Hz Hc. cbn [wp]. right. cbn [typ set_io set_rbuf set_toRead on_line andb]. change (typ _) with (typ x). rewrite Ht. rewrite R in *. destruct (Hc Hok ltac:(lia)) as [O1 O2]. exists tk, r'. splits; auto.
      split; [|splits; auto; discriminate]. unfold sg_keep. splits; try reflexivity; try assumption; cbn; try congruence. now right.
Qed.

Lemma sg_hear_notice : forall P L (x : dv) d r n, sg_on P d 0 true r x -> prefixb (bs "+IPD") L = true -> number P (skipn 5 L) = n -> modest n -> sg_on P d n false r (sg_hear P L x).
Proof.
  intros P L x d r n ((G & F & I & E & S & Cr & Cw & Cn) & Cm & Cl & R & _) HL Hv Hn. unfold sg_hear. rewrite HL, Hv, Cw, (modest_i32 n Hn).
  cbn [se_wait_after]. cbv zeta. change (toRead (set_wait None x)) with (toRead x). rewrite Cm, Z.add_0_l. rewrite u64_small by (unfold modest in Hn; lia).
  split; [|splits; auto]. unfold sg_keep. splits; try reflexivity; try assumption.
Qed.

Definition sg_at (P : plat) (d : dv) n b r (x : dv) : Prop := sg_on P d n b r x /\ rxsz (io x) = rxsz (io d).
Lemma sg_look_all : forall P d n b r (x : dv) e x', se_step P x e x' -> looks (e_op e) = true -> sg_on P d n b r x -> sg_on P d n b r x' /\ put (e_ev e) = [] /\ payload e = [].
Proof.
  intros P d n b r x e x' Hs Hl H1. destruct (se_look P x e x' Hs Hl) as [E1 E2]. split; [rewrite E1; exact H1|]. split; [exact E2|].
  destruct Hs as (_ & _ & _ & _ & _ & _ & _ & _ & z & Hc & _). unfold callrel in Hc. unfold payload. destruct (e_op e); try discriminate Hl; destruct Hc as [-> _]; reflexivity.
Qed.
Lemma sg_hear_io : forall P L (x : dv), io (sg_hear P L x) = io x.
Proof. intros P L x. unfold sg_hear. destruct (prefixb _ L); reflexivity. Qed.

(** What a run() does while [n] bytes are to come: nothing, or it takes all of them. *)
Definition sg_then (P : plat) (d : dv) (n : Z) (r : ring ascii) (t : bytes) (x : dv) : Prop :=
  (t = [] /\ sg_on P d n false r x /\ sst x = SEReceiving) \/
  (exists r', Z.of_nat (length t) = n /\ ring_ok r' /\ contents r' = contents r ++ t /\ rsize r' = rsize r /\ sg_on P d 0 true r' x).

(** A run() reading nothing, or a line that says nothing, while nothing is to come. *)
Lemma sg_run_idle : forall P N d r x e x', se_step P x e x' -> roomy N x e -> hears None e \/ hears (Some se_hum) e -> sg_on P d 0 true r x -> avail (wbuf d) = 0 -> 20 <= N ->
  sg_on P d 0 true r x' /\ put (e_ev e) = [] /\ payload e = [].
Proof.
  intros P N d r x e x' Hs Hr Hh H Ha HN. pose proof H as ((G & F & I & E & S & Cr & Cw & Cn) & _). injection F as F1 F2.
  assert (Hf : sg_fetches x) by (split; [exact Cr|split; [destruct S as [-> | ->]; cbn; lia|apply G]]).
  assert (K : exists o y d1, (match o with Some L => se_hum L | None => True end) /\ shell x y /\ se_inv (sg_heard P o y) /\ txav (io y) + N <= txsz (io y) /\
    se_output P (sg_heard P o y) = Ok d1 /\ x' = set_io (io x') d1 /\ se_put_says e (sg_heard P o y) d1).
  { destruct Hh as [Hh|Hh].
    - destruct (sg_turns P N x e x' _ Hs Hr Hh G F2 Hf ltac:(discriminate)) as (o & y & d1 & A0 & A1 & A2 & _ & _ & _ & A3 & _ & A5 & A6 & A7).
      exists o, y, d1. splits; auto. destruct o; [destruct A0|exact Logic.I].
    - destruct (sg_turns P N x e x' _ Hs Hr Hh G F2 Hf) as (o & y & d1 & A0 & A1 & A2 & _ & _ & _ & A3 & _ & A5 & A6 & A7).
      { intros q L Eq HL. apply some_eq in Eq. subst q. apply se_hum_inv in HL as (_ & H1 & _). exact H1. }
      exists o, y, d1. splits; auto. destruct o; [apply A0|exact Logic.I]. }
  destruct K as (o & y & d1 & A0 & A1 & A2 & A3 & A5 & A6 & A7). pose proof (sg_on_shell _ _ _ _ _ _ _ H A1) as H1.
  assert (Eo : sg_heard P o y = y). { destruct o as [L|]; [|reflexivity]. apply sg_hear_hum; [exact A0|apply H1]. }
  rewrite Eo in *. destruct (sg_free P N e y d1 A2 A5) as (z & Q & B1 & B2 & B3 & B4 & B5); auto; try apply H1.
  destruct (sg_idle P d r (set_io z y) d1 H1 Ha B3) as (E1 & E2).
  assert (Hn : put (e_ev e) = [] /\ payload e = []) by (apply B4; rewrite E1; apply ioeff_refl; apply B1).
  split; [rewrite A6; exact E2|exact Hn].
Qed.

(** While line reading is off no line is read. *)
Lemma se_deaf : forall P x e x' oo, se_step P x e x' -> e_op e = OpRun oo -> fLock (fl x) = false -> fLine (fl x) = false -> hears None e.
Proof.
  intros P x e x' oo Hs Eo G3 Cl tk L Hin.
  destruct (se_parts P x e x' oo Hs Eo G3) as (d1 & Hd & [(Ea & _)|[(_ & _ & H)|(_ & _ & a & d2 & r2 & Hi & (HI & _ & Hx) & Hrr)]]).
  - rewrite Ea in Hin. destruct Hin.
  - destruct H as (q & Ea & _). rewrite Ea in Hin. destruct Hin as [Hin|[]]. discriminate Hin.
  - assert (Hac : a = aLine tk L).
    { destruct Hrr as [(Ea & _)|(b & _ & Ea & Hol & _)]; rewrite Ea in Hin; cbn [app] in Hin; destruct Hin as [<-|Hin]; auto; [destruct Hin|].
      destruct Hin as [->|[]]. exfalso. inversion Hol. }
    subst a. assert (Hln : fLine (fl x) = true) by (inversion Hi; assumption). congruence.
Qed.
Lemma sg_deaf : forall P N d n r x e x', se_step P x e x' -> roomy N x e -> sg_on P d n false r x -> hears None e.
Proof. intros P N d n r x e x' Hs [(oo & Eo) _] ((G & _) & _ & Cl & _). apply (se_deaf P x e x' oo Hs Eo); [apply G|exact Cl]. Qed.

(** A run() while bytes are to come: it takes all of them once they are there. *)
Lemma sg_run_busy : forall P N d n r x e x', se_step P x e x' -> roomy N x e -> sg_on P d n false r x -> avail (wbuf d) = 0 -> 20 <= N -> (0 < n)%Z -> ring_ok r -> (Z.of_nat (avail r) + n <= Z.of_nat (rsize r))%Z ->
  put (e_ev e) = [] /\ sg_then P d n r (payload e) x' /\ (sst x = SEReceiving -> (n <= Z.of_nat (rxav (io x)))%Z -> payload e <> []).
Proof.
  intros P N d n r x e x' Hs Hr H Ha HN Hn Hok Hfit. pose proof H as ((G & F & I & E & S & Cr & Cw & Cn) & Cm & Cl & R & Cd). injection F as F1 F2.
  pose proof (sg_deaf P N d n r x e x' Hs Hr H) as Hh.
  destruct (sg_turn_none P N x e x' Hs Hr Hh G F2) as (y & d1 & A2 & A1 & _ & Av & _ & A3 & _ & A5 & A6 & A7).
  specialize (Av Cl). pose proof (sg_on_shell _ _ _ _ _ _ _ H A1) as H1.
  destruct (sg_free P N e y d1 A2 A5) as (z & Q & B1 & B2 & B3 & B4 & B5); auto; try apply H1.
  pose proof (sg_takes P d n r (set_io z y) B1 H1 Ha Hn Hok Hfit) as T. rewrite B3 in T. cbn [wp io set_io] in T.
  destruct T as [(T1 & T2 & T3 & T4)|(tk & r' & T1 & T2 & T3 & T4 & T5 & T6)]; destruct (B4 _ _ T1) as [-> ->]; (split; [reflexivity|]); split.
  - left. splits; auto; rewrite A6; assumption.
  - intros Sx Hle. exfalso. assert (Ey : sst (set_io z y) = SEReceiving) by (unfold shell in A1; rewrite A1; exact Sx). specialize (T3 Ey).
    apply ioeff_av in T1. apply quiet_ioeff, ioeff_av in Q. cbn [length] in T1, Q. lia.
  - right. exists r'. splits; auto. rewrite A6. exact T6.
  - intros _ _ ->. cbn [length] in T2. lia.
Qed.

(** The notice. *)
Lemma sg_run_notice : forall P N d n r x e x', se_step P x e x' -> roomy N x e -> hears (noticed P n) e -> sg_on P d 0 true r x -> avail (wbuf d) = 0 -> 20 <= N -> (0 < n)%Z -> modest n -> ring_ok r -> (Z.of_nat (avail r) + n <= Z.of_nat (rsize r))%Z ->
  put (e_ev e) = [] /\ sg_then P d n r (payload e) x'.
Proof.
  intros P N d n r x e x' Hs Hr Hh H Ha HN Hn Hmo Hok Hfit. pose proof H as ((G & F & I & E & S & Cr & Cw & Cn) & Cm & Cl & R & Cd). injection F as F1 F2.
  assert (Hf : sg_fetches x) by (split; [exact Cr|split; [destruct S as [-> | ->]; cbn; lia|apply G]]).
  destruct (sg_turns P N x e x' _ Hs Hr Hh G F2 Hf) as (o & y & d1 & A0 & A1 & A2 & _ & _ & _ & A3 & _ & A5 & A6 & A7).
  { intros q L Eq HL. unfold noticed in Eq. apply some_eq in Eq. subst q. exact (se_plain "+IPD" L ltac:(cbn; tauto) (proj1 HL)). }
  destruct o as [L|]; [|destruct A0]. cbn [heard_as noticed sg_heard] in *. pose proof (sg_on_shell _ _ _ _ _ _ _ H A1) as H0.
  pose proof (sg_hear_notice P L y d r n H0 (proj1 A0) (proj2 A0) Hmo) as H1.
  destruct (sg_free P N e (sg_hear P L y) d1 A2 A5) as (z & Q & B1 & B2 & B3 & B4 & B5); auto; try apply H1; [rewrite sg_hear_io; exact A3|].
  pose proof (sg_takes P d n r (set_io z (sg_hear P L y)) B1 H1 Ha Hn Hok Hfit) as T. rewrite B3 in T. cbn [wp io set_io] in T.
  destruct T as [(T1 & T2 & _ & T4)|(tk & r' & T1 & T2 & T3 & T4 & T5 & T6)]; destruct (B4 _ _ T1) as [-> ->]; (split; [reflexivity|]).
  - left. splits; auto; rewrite A6; assumption.
  - right. exists r'. splits; auto. rewrite A6. exact T6.
Qed.

(** The module sends datagrams of the sizes [ns] without being asked: run()s that read such
    a notice, in any number mixed with run()s that read nothing, an empty line or an echo,
    and with calls that only look. *)
Inductive feed (P : plat) (N : nat) : dv -> list Z -> list ent -> dv -> Prop :=
| fd_end d : feed P N d [] [] d
| fd_look d e d1 ns tr d' : se_step P d e d1 -> looks (e_op e) = true -> feed P N d1 ns tr d' -> feed P N d ns (e :: tr) d'
| fd_idle d e d1 ns tr d' : se_step P d e d1 -> roomy N d e -> hears None e \/ hears (Some se_hum) e -> feed P N d1 ns tr d' -> feed P N d ns (e :: tr) d'
| fd_gram d e d1 n ns tr d' : se_step P d e d1 -> roomy N d e -> hears (noticed P n) e -> feed P N d1 ns tr d' -> feed P N d (n :: ns) (e :: tr) d'.

(** [m] bytes of a datagram are to come. *)
Definition sg_state (P : plat) (d : dv) (m : Z) (r : ring ascii) (x : dv) : Prop :=
  ((m = 0%Z /\ sg_on P d 0 true r x) \/ ((0 < m)%Z /\ sg_on P d m false r x)) /\ ring_ok r.
Lemma sg_state_then : forall P d n r t x, sg_then P d n r t x -> (0 < n)%Z -> ring_ok r -> exists m r', sg_state P d m r' x /\ (m + Z.of_nat (length t) = n)%Z /\ contents r' = contents r ++ t /\ rsize r' = rsize r /\ avail r' = avail r + length t /\ (m = 0%Z \/ m = n).
Proof.
  intros P d n r t x [(-> & H & _)|(r' & Hl & Ho & Hc & Hz & H)] Hn Hok.
  - exists n, r. rewrite app_nil_r. cbn [length]. splits; auto; try lia. split; auto.
  - exists 0%Z, r'. splits; auto; try lia; [split; auto|]. rewrite <- (contents_length _ (proj1 Ho)), <- (contents_length _ (proj1 Hok)), Hc, app_length. reflexivity.
Qed.
Lemma hears_both : forall q (e : ent), hears None e -> ~ hears (Some q) e.
Proof. intros q e H (tk & L & Hin & _). exact (H tk L Hin). Qed.

Lemma last_any : forall A (l : list A) a x y, last (a :: l) x = last (a :: l) y.
Proof. induction l as [|b l IH]; intros a x y; [reflexivity|]. change (last (b :: l) x = last (b :: l) y). apply IH. Qed.
Lemma sg_feed : forall P N d x ns tr x', feed P N x ns tr x' -> avail (wbuf d) = 0 -> 20 <= N -> Forall (fun n => (0 < n < 2147483648)%Z) ns ->
  forall m r, sg_state P d m r x -> (Z.of_nat (avail r) + m + fold_right Z.add 0%Z ns <= Z.of_nat (rsize r))%Z ->
  sent tr = [] /\ exists m' r', sg_state P d m' r' x' /\ (Z.of_nat (length (payloads tr)) + m' = m + fold_right Z.add 0%Z ns)%Z /\
    contents r' = contents r ++ payloads tr /\ rsize r' = rsize r /\ (m' = 0%Z \/ m' = last ns m).
Proof.
  intros P N d x ns tr x' Hf Ha HN. induction Hf as [x|x e x1 ns tr x' Hs Hl Hf IH|x e x1 ns tr x' Hs Hr Hh Hf IH|x e x1 n ns tr x' Hs Hr Hh Hf IH]; intros Hns m r Hst Hfit.
  - split; [reflexivity|]. exists m, r. cbn [fold_right last payloads concat map length]. rewrite app_nil_r. splits; auto; lia.
  - assert (H1 : sg_state P d m r x1 /\ put (e_ev e) = [] /\ payload e = []).
    { destruct Hst as [[[-> K]|[Hm K]] Hok]; destruct (sg_look_all _ _ _ _ _ _ _ _ Hs Hl K) as (K1 & K2 & K3); (split; [split; auto|auto]). }
    destruct H1 as (H1 & H2 & H3). rewrite sent_cons, payloads_cons, H2, H3. exact (IH Hns m r H1 Hfit).
  - pose proof Hst as [[[-> K]|[Hm K]] Hok].
    + destruct (sg_run_idle P N d r x e x1 Hs Hr Hh K Ha HN) as (K1 & K2 & K3). rewrite sent_cons, payloads_cons, K2, K3.
      apply (IH Hns 0%Z r); [split; auto|exact Hfit].
    + assert (Hsum : (0 <= fold_right Z.add 0 ns)%Z) by (clear -Hns; induction Hns; cbn [fold_right]; lia).
      destruct (sg_run_busy P N d m r x e x1 Hs Hr K Ha HN Hm Hok ltac:(lia)) as (K1 & K2 & _). apply sg_state_then in K2 as (m1 & r1 & L1 & L2 & L3 & L4 & L5 & L6); auto.
      destruct (IH Hns m1 r1 L1 ltac:(lia)) as (S1 & m2 & r2 & M1 & M2 & M3 & M4 & M5). rewrite sent_cons, payloads_cons, K1, S1. split; [reflexivity|]. exists m2, r2.
      rewrite app_length. splits; auto; try lia; [rewrite M3, L3, app_assoc; reflexivity|].
      destruct M5 as [M5|M5]; [left; exact M5|]. destruct L6 as [->|L6]; [|subst m1; right; exact M5]. destruct ns as [|a ns]; [left; exact M5|right; rewrite M5; apply last_any].
  - apply Forall_cons_iff in Hns as [Hn Hns]. cbn [fold_right] in *.
    pose proof Hst as [[[-> K]|[Hm K]] Hok].
    + assert (Hsum : (0 <= fold_right Z.add 0 ns)%Z) by (clear -Hns; induction Hns; cbn [fold_right]; lia).
      destruct (sg_run_notice P N d n r x e x1 Hs Hr Hh K Ha HN ltac:(lia) ltac:(unfold modest; lia) Hok ltac:(lia)) as (K1 & K2). apply sg_state_then in K2 as (m1 & r1 & L1 & L2 & L3 & L4 & L5 & L6); auto; [|lia].
      destruct (IH Hns m1 r1 L1 ltac:(lia)) as (S1 & m2 & r2 & M1 & M2 & M3 & M4 & M5). rewrite sent_cons, payloads_cons, K1, S1. split; [reflexivity|]. exists m2, r2.
      rewrite app_length. splits; auto; try lia; [rewrite M3, L3, app_assoc; reflexivity|].
      destruct M5 as [M5|M5]; [left; exact M5|]. destruct ns as [|a ns]; [cbn [last] in *; destruct L6 as [L6|L6]; [left|right]; congruence|right; rewrite M5; change (last (n :: a :: ns) 0%Z) with (last (a :: ns) 0%Z); apply last_any].
    + exfalso. exact (hears_both _ _ (sg_deaf P N d m r x e x1 Hs Hr K) Hh).
Qed.
