(** The Espressif driver fetches what the module reports, if the module answers. *)
From Coq Require Import String Ascii ZArith List Bool Arith Lia ZifyBool ZifyNat.
From Verif Require Import Base QueueSpec LineSpec SerialSpec Ring RingProofs LineRing LineRingProofs Serial SerialProofs
  SerStep TaskMacros CStr CStrProofs Dev DevProofs SimDev SimProofs SimSpec SimParse SimLog Sym DrvStep DrvCommon DrvRun DrvHist DrvActs DrvStuck DrvHand DrvFetch
  Espressif EsSpec EsFill EsProofs EsCtl EsCtlIn EsRun AtLine EsHist EsThms EsMore EsLine EsReq EsRest EsStuck EsHand.
Import ListNotations.
Local Open Scope nat_scope.
Ltac Zify.zify_post_hook ::= Z.div_mod_to_equations.
Local Notation dv := (dev essend esreply espx).
Local Notation ent := (@entry esop).
Local Notation olabE P := (olab re_ok (se_says P) se_tail se_insend false).

(** The notice of [v] bytes, and the header of [v] bytes: read up to the separator. *)
Definition noticed (P : plat) (v : Z) : option (bytes -> Prop) :=
  Some (fun L => prefixb (bs "+IPD") L = true /\ number P (skipn 5 L) = v).
Definition headed (P : plat) (v : Z) : option (bytes -> Prop) :=
  Some (fun L => (last L NUL = ":"%char /\ prefixb (bs "+CIPRECVDATA,") L = true \/ last L NUL = ","%char /\ prefixb (bs "+CIPRECVDATA:") L = true) /\
    14 < length L < 60 /\ number P (skipn 13 L) = v).
Definition is_head (L : bytes) : bool := negb (at_end (last L NUL) (length L)) && se_header REWaitCiprecvdata L.
Lemma headed_ok : forall P v L, match headed P v with Some q => q L | None => False end -> prefixb (bs "+CIPRECVDATA") L = true /\ is_head L = true /\ number P (skipn 13 L) = v.
Proof.
  intros P v L (H & [H1 H2] & H3). assert (E : is_head L = true).
  { unfold is_head, se_header, at_end, LINE_MAX_LENGTH, aeqb. destruct (Nat.ltb_spec 14 (length L)); [|lia]. destruct (Nat.eqb_spec (length L) 60); [lia|].
    destruct H as [[-> ->]|[-> ->]]; reflexivity. }
  splits; auto. unfold is_head in E. apply andb_true_iff in E as [_ E]. exact (se_header_prefix _ _ E).
Qed.
Lemma is_head_prefix : forall L, prefixb (bs "+CIPRECVDATA") L = false -> is_head L = false.
Proof.
  intros L H. destruct (is_head L) eqn:E; [|reflexivity]. unfold is_head in E. apply andb_true_iff in E as [_ E]. rewrite (se_header_prefix _ _ E) in H. discriminate H.
Qed.

(** In operation on a TCP connection, with no request for the signal strength or the MAC
    address pending. *)
Definition se_tuned (P : plat) (d : dv) : Prop :=
  isopen d = true /\ fReset (fl d) = false /\ fLock (fl d) = false /\ rssi d <> INT16_MAX /\ se_mac_request P (emac (ext d)) = false /\ typ d = TCP.

(** Lines that say nothing about errors, data or the end of the connection. *)
Definition se_hum (L : bytes) : Prop :=
  Forall (fun s => prefixb (bs s) L = false) ["OK"; "ERROR"; "FAIL"; "SEND FAIL"; "+IPD"; "+CIPRECVDATA"; "CLOSED"; "WIFI DISCONNECT"]%string.
Definition se_ending (L : bytes) : bool := se_is_error L || prefixb (bs "SEND FAIL") L || prefixb (bs "CLOSED") L || prefixb (bs "WIFI DISCONNECT") L.
Lemma se_hum_inv : forall L, se_hum L -> prefixb (bs "OK") L = false /\ se_ending L = false /\ prefixb (bs "+IPD") L = false /\ is_head L = false.
Proof.
  intros L H. unfold se_hum in H. repeat match goal with H : Forall _ (_ :: _) |- _ => apply Forall_cons_iff in H as [? H] end.
  unfold se_ending, se_is_error. rewrite H1, H2, H3, H6, H7. splits; auto. apply is_head_prefix. assumption.
Qed.

(** What a line does to the driver while it fetches data. *)
Definition se_wait_after (L : bytes) (w : option bytes) : option bytes := match w with Some v => if prefixb v L then None else w | None => None end.
Definition se_hear (P : plat) (L : bytes) (d : dv) : dv :=
  let v := i32 (number P (skipn 13 L)) in
  let x := set_wait (se_wait_after L (wait d)) d in
  let x := match rst d with
    | REWaitCiprecvdata => if is_head L
        then set_sst SEReceiving (set_rst REOk (on_line false (set_toRead (u64 (toRead x + v)) (set_toReceive (u64 (toReceive x - v)) x)))) else x
    | _ => x
    end in
  if prefixb (bs "+IPD") L then on_data true (set_toReceive (u64 (i32 (number P (skipn 5 L)))) x) else x.
Definition se_fetches (d : dv) : Prop :=
  (rst d = REOk \/ rst d = REWaitCiprecvdata) /\ se_rank SEConnected <= se_rank (sst d) /\ typ d = TCP.

Lemma se_line_hear : forall P d ret d' L, se_handles P d ret d' L -> se_whole d L -> se_fetches d -> se_ending L = false ->
  ret = false /\ exists r y, d' = se_hear P L (line_at L r y d).
Proof.
  intros P d ret d' L (r & y & Hlen & _ & HI & E) Hw [He [Hk Ht]] F. destruct (se_line_long d L Hw) as [H5 H13].
  rewrite (parse_at P L r Hlen H5 H13 (line_at L r y (se_took L d)) eq_refl HI) in E.
  apply ok_eq in E. apply pair_equal_spec in E as [<- <-]. unfold se_ending in F. apply orb_false_iff in F as [F F4]. apply orb_false_iff in F as [F F3]. apply orb_false_iff in F as [F1 F2].
  split; [exact F1|]. exists r, y.
  assert (Hd : se_took L d = if se_data (rst d) L then set_rst REParseCiprecvdata d else d).
  { unfold se_took, se_data. destruct Hw as (_ & _ & _ & _ & _ & _ & Hz). unfold se_ends in Hz. destruct (at_end _ _); [reflexivity|]. cbn [orb negb andb] in *.
    destruct (se_colon _ _ L) eqn:Ec; cbn [orb] in *; [|rewrite Hz; reflexivity]. replace (se_header (rst d) L) with false; [reflexivity|].
    unfold se_colon in Ec. unfold se_header. destruct (rst d); try reflexivity. rewrite andb_false_r in Ec. discriminate Ec. }
  rewrite Hd. clear Hd. unfold st_line. rewrite F1. unfold se_hear, se_data. set (x := line_at L r y d). change (wait d) with (wait x) in *. change (rst d) with (rst x) in *.
  assert (Hu : forall z : dv, typ z = TCP -> st_unsol P L z = if prefixb (bs "+IPD") L then on_data true (set_toReceive (u64 (i32 (number P (skipn 5 L)))) z) else z).
  { intros z Hz. unfold st_unsol. rewrite Hz, F3, F4. reflexivity. }
  assert (Hn : forall z : dv, se_nosend z L = false) by (intro z; unfold se_nosend; rewrite F2; apply andb_false_r). rewrite Hn.
  assert (Htx : typ x = TCP) by exact Ht. assert (Hkx : 10 <= se_rank (sst x)) by exact Hk. 
  destruct He as [Er|Er]; change (rst d) with (rst x) in Er; rewrite Er.
  - assert (Eh : se_header REOk L = false) by reflexivity. rewrite Eh, andb_false_r. fold x. unfold st_special. change (rst (st_standard L x)) with (rst x). rewrite Er. cbv zeta.
    change (sst (st_standard L x)) with (sst x). apply Nat.leb_le in Hkx. rewrite Hkx. rewrite Hu by exact Ht. reflexivity.
  - change (negb (at_end (last L NUL) (length L)) && se_header REWaitCiprecvdata L) with (is_head L). destruct (is_head L) eqn:Eh.
    + assert (Ep : prefixb (bs "+CIPRECVDATA") L = true) by (unfold is_head in Eh; apply andb_true_iff in Eh as [_ Eh]; exact (se_header_prefix _ _ Eh)).
      unfold st_special. change (rst (st_standard L _)) with REParseCiprecvdata. rewrite Ep. cbv zeta. change (10 <=? se_rank (sst _)) with true. cbn iota. rewrite Hu by exact Ht. reflexivity.
    + fold x. unfold st_special. change (rst (st_standard L x)) with (rst x). rewrite Er. cbv zeta.
      change (sst (st_standard L x)) with (sst x). apply Nat.leb_le in Hkx. rewrite Hkx. rewrite Hu by exact Ht. reflexivity.
Qed.

Definition se_put_says (e : ent) (x d1 : dv) : Prop := forall t q, ioeff (io x) (io d1) t q -> put (e_ev e) = q /\ payload e = t.

Lemma se_says_puts : forall P d e d' a b x d1, se_step P d e d' -> (exists oo, e_op e = OpRun oo) -> e_acts e = [a; b] -> act_put a = [] -> act_payload a = [] -> olabE P x d1 b -> se_put_says e x d1.
Proof.
  intros P d e d' a b x d1 Hs (oo & Eop) Ea Ha Hb Ho t q Hi. destruct Hs as (_ & _ & _ & _ & _ & _ & Hio & _). unfold call_io in Hio. rewrite Eop in Hio. destruct Hio as [_ ->].
  unfold payload. rewrite Ea. unfold acts_put. cbn [map concat]. rewrite Ha, Hb, !app_nil_r. cbn [app]. split.
  - refine (olab_put _ _ _ _ _ _ _ _ x d1 b t q _ Ho Hi). intros z Hz. destruct (olab_io (se_shape P) _ _ _ Hz) as (ev & T1 & _ & T2 & _). eauto.
  - exact (olab_taken _ _ _ _ _ _ _ _ _ _ _ _ _ Ho Hi).
Qed.

Lemma se_turn_none : forall P N d e d', se_step P d e d' -> roomy N d e -> hears None e -> se_tuned P d -> fDisc (fl d) = false ->
  exists x d1, se_inv x /\ shell d x /\ (fLine (fl d) = true -> rxav (io x) = 0) /\ (e_sch e = [] -> sched (io x) = []) /\ txav (io x) + N <= txsz (io x) /\ rxsz (io x) = rxsz (io d) /\
    se_output P x = Ok d1 /\ d' = set_io (io d') d1 /\ se_put_says e x d1.
Proof.
  intros P N d e d' Hs ((oo & Eo) & Ht) Hn (H1 & H2 & H3 & _) Hdi.
  destruct (se_parts P d e d' oo Hs Eo H3) as (d1 & Hd & [(_ & E & _)|[(_ & E & _)|(_ & _ & a & d2 & r & Hi & (HI & _ & Hx) & Hr)]]); [congruence|congruence|].
  assert (Htx : txav (io d2) <= txav (io d)) by exact (ilab_tx (se_shape P) _ _ _ _ Hi).
  destruct (ilab_io (se_shape P) _ _ _ _ Hi) as (ev & Hst & _).
  assert (Hna : forall tk L, a <> aLine tk L) by (intros tk L ->; apply (Hn tk L); destruct Hr as [[-> _]|(b & _ & -> & _)]; left; reflexivity).
  assert (Hsh : r = false /\ shell d d2 /\ (fLine (fl d) = true -> rxav (io d2) = 0) /\ act_put a = [] /\ act_payload a = []).
  { destruct Hi as [tk E1 E2 E3 E4 E5 E6 E7 (E8 & E9 & E10 & E11 & E12 & E13) E14 E15 E16 E17 E18 E19 E20 E21 E22 E23 E24|tk1 tk2 E1 E2|tk L]; [|exfalso; change (fDisc (fl d) = true) in E2; congruence|exfalso; eapply Hna; reflexivity].
    splits; auto. clear - E8 E9 E10 E11 E12 E13 E14 E15 E16 E17 E18 E19 E20 E21 E22 E23 E24.
    unfold shell, set_io, set_lbfill, set_lbuf. cbn. change (during (e_sch e) d) with (set_io (mkSys (ser (io d)) (e_sch e) []) d) in *. cbn in *.
    rewrite <- E8, <- E9, <- E10, <- E11, <- E12, <- E13, <- E14, <- E15, <- E16, <- E17, <- E18, <- E19, <- E20, <- E21, <- E22, <- E23, <- E24. destruct d2; reflexivity. }
  destruct Hsh as (-> & Hsh & Hrx & Pa & Pb).
  destruct Hr as [(_ & _ & Z)|(b & _ & Ea & Hol & Hox)]; [discriminate Z|]. destruct Hox as (I2 & _ & Eq).
  exists d2, d1. splits; auto.
  - intro Z. destruct Hst as (_ & _ & _ & _ & _ & _ & Hst). apply Hst. exact Z.
  - rewrite (sstep_txsz _ _ _ Hst). change (txsz (io (during (e_sch e) d))) with (txsz (io d)). lia.
  - exact (sstep_rxsz _ _ _ Hst).
  - exact (se_says_puts P d e d' a b d2 d1 Hs (ex_intro _ oo Eo) Ea Pa Pb Hol).
Qed.

Lemma se_turn_line : forall P N d e d' q, se_step P d e d' -> roomy N d e -> hears (Some q) e -> se_tuned P d -> se_fetches d ->
  (forall L, q L -> se_ending L = false) ->
  exists x d1 L, q L /\ shell d x /\ se_inv (se_hear P L x) /\ fLine (fl d) = true /\ txav (io x) + N <= txsz (io x) /\ rxsz (io x) = rxsz (io d) /\
    se_output P (se_hear P L x) = Ok d1 /\ d' = set_io (io d') d1 /\ se_put_says e (se_hear P L x) d1.
Proof.
  intros P N d e d' q Hs ((oo & Eo) & Ht) (tk & L & Hin & HL) (H1 & H2 & H3 & _) He Hq.
  destruct (se_parts P d e d' oo Hs Eo H3) as (d1 & Hd & [(_ & E & _)|[(_ & E & _)|(_ & _ & a & d2 & r & Hi & (HI & _ & Hx) & Hr)]]); [congruence|congruence|].
  assert (Htx : txav (io d2) <= txav (io d)) by exact (ilab_tx (se_shape P) _ _ _ _ Hi).
  destruct (ilab_io (se_shape P) _ _ _ _ Hi) as (ev & Hst & _).
  assert (Ha : a = aLine tk L).
  { destruct Hr as [(Ea & _)|(b & _ & Ea & Hol & _)]; rewrite Ea in Hin; cbn [app] in Hin; destruct Hin as [<-|Hin]; auto; [destruct Hin|].
    destruct Hin as [->|[]]. exfalso. inversion Hol. }
  subst a. destruct Hx as [_ Hx]. pose proof (Hq L HL) as Q1.
  assert (Hln : fLine (fl d) = true) by (inversion Hi; assumption).
  destruct (se_line_hear P _ r d2 L Hx ltac:(inversion Hi; assumption) He Q1) as (Er & r0 & y & Ed2).
  destruct Hr as [(_ & _ & ->)|(b & _ & Ea & Hol & Hox)]; [discriminate Er|].
  destruct Hox as (I2 & _ & Eq). exists (line_at L r0 y d), d1, L.
  assert (Hio : forall x, io (se_hear P L x) = io x) by (intro x; unfold se_hear; repeat match goal with |- context [match ?c with _ => _ end] => destruct c end; reflexivity).
  change (line_at L r0 y (during (e_sch e) d)) with (line_at L r0 y d) in Ed2. rewrite <- Ed2. splits; auto.
  - reflexivity.
  - rewrite <- Hio, <- Ed2, (sstep_txsz _ _ _ Hst). change (txsz (io (during (e_sch e) d))) with (txsz (io d)). lia.
  - rewrite <- Hio, <- Ed2. exact (sstep_rxsz _ _ _ Hst).
  - exact (se_says_puts P d e d' (aLine tk L) b d2 d1 Hs (ex_intro _ oo Eo) Ea eq_refl eq_refl Hol).
Qed.

(** *** What a run() does, in general *)
Definition heard (P : plat) (o : option bytes) (d : dv) : dv := match o with Some L => se_hear P L d | None => d end.
Definition heard_as (p : option (bytes -> Prop)) (o : option bytes) : Prop :=
  match p, o with Some q, Some L => q L | None, None => True | _, _ => False end.
Lemma se_turns : forall P N d e d' p, se_step P d e d' -> roomy N d e -> hears p e -> se_tuned P d -> fDisc (fl d) = false -> se_fetches d ->
  (forall q L, p = Some q -> q L -> se_ending L = false) ->
  exists o x d1, heard_as p o /\ shell d x /\ se_inv (heard P o x) /\ (o <> None -> fLine (fl d) = true) /\
    (o = None -> fLine (fl d) = true -> rxav (io x) = 0) /\ (o = None -> e_sch e = [] -> sched (io x) = []) /\ txav (io x) + N <= txsz (io x) /\ rxsz (io x) = rxsz (io d) /\
    se_output P (heard P o x) = Ok d1 /\ d' = set_io (io d') d1 /\ se_put_says e (heard P o x) d1.
Proof.
  intros P N d e d' p Hs Hr Hh Hg Hdi Hf Hq. destruct p as [q|].
  - destruct (se_turn_line P N d e d' q Hs Hr Hh Hg Hf (fun L => Hq q L eq_refl)) as (x & d1 & L & A1 & A2 & A3 & A4 & A5 & A6 & A7 & A8 & A9).
    exists (Some L), x, d1. cbn [heard heard_as]. splits; auto; discriminate.
  - destruct (se_turn_none P N d e d' Hs Hr Hh Hg Hdi) as (x & d1 & A1 & A2 & A3 & A4 & A5 & A6 & A7 & A8 & A9).
    exists None, x, d1. cbn [heard heard_as]. splits; auto.
Qed.
Lemma se_hear_hum : forall P L (x : dv), se_hum L -> wait x = None \/ wait x = Some (bs "OK") -> se_hear P L x = x.
Proof.
  intros P L x H Hw. apply se_hum_inv in H as (H0 & H1 & H2 & H3). unfold se_hear. rewrite H2, H3.
  assert (se_wait_after L (wait x) = wait x) as -> by (destruct Hw as [->| ->]; cbn [se_wait_after]; rewrite ?H0; reflexivity).
  destruct (rst x); destruct x; reflexivity.
Qed.
Lemma se_turns_aside : forall P N d e d' q, se_step P d e d' -> roomy N d e -> aside se_hum q e -> se_tuned P d -> fDisc (fl d) = false -> se_fetches d ->
  wait d = None \/ wait d = Some (bs "OK") ->
  exists x d1, shell d x /\ se_inv x /\ txav (io x) + N <= txsz (io x) /\ rxsz (io x) = rxsz (io d) /\
    se_output P x = Ok d1 /\ d' = set_io (io d') d1 /\ se_put_says e x d1.
Proof.
  intros P N d e d' q Hs Hr Ha Hg Hdi Hf Hw.
  assert (H : exists o x d1, (match o with Some L => se_hum L | None => True end) /\ shell d x /\ se_inv (heard P o x) /\ txav (io x) + N <= txsz (io x) /\ rxsz (io x) = rxsz (io d) /\
    se_output P (heard P o x) = Ok d1 /\ d' = set_io (io d') d1 /\ se_put_says e (heard P o x) d1).
  { destruct Ha as [Ha|Ha].
    - destruct (se_turns P N d e d' _ Hs Hr Ha Hg Hdi Hf ltac:(discriminate)) as (o & x & d1 & A0 & A1 & A2 & _ & _ & _ & A3 & A4 & A5 & A6 & A7).
      exists o, x, d1. splits; auto. destruct o; [destruct A0|exact I].
    - destruct (se_turns P N d e d' _ Hs Hr Ha Hg Hdi Hf) as (o & x & d1 & A0 & A1 & A2 & _ & _ & _ & A3 & A4 & A5 & A6 & A7).
      { intros q0 L E HL. apply some_eq in E. subst q0. destruct HL as [HL _]. apply se_hum_inv in HL as (_ & H1 & _). exact H1. }
      exists o, x, d1. splits; auto. destruct o; [apply A0|exact I]. }
  destruct H as (o & x & d1 & A0 & A1 & A2 & A3 & A4 & A5 & A6 & A7).
  assert (Eo : heard P o x = x). { destruct o as [L|]; [|reflexivity]. apply se_hear_hum; [exact A0|]. rewrite A1. exact Hw. }
  rewrite Eo in *. exists x, d1. splits; auto.
Qed.

Definition se_pending (d : dv) : Prop := wait d <> None \/ rst d <> REOk.
Lemma se_pending_output : forall P (d d1 : dv), se_output P d = Ok d1 -> se_pending d -> d1 = d.
Proof.
  intros P d d1 H Hp. unfold se_output in H. destruct Hp as [Hp|Hp].
  - destruct (wait d); [apply ok_inj in H; congruence|congruence].
  - destruct (wait d); [apply ok_inj in H; congruence|]. destruct (rst d); try contradiction; cbn [re_ok negb] in H; apply ok_inj in H; congruence.
Qed.
Lemma se_still : forall P e (x d1 : dv), se_inv x -> se_output P x = Ok d1 -> se_pending x -> se_put_says e x d1 -> d1 = x /\ put (e_ev e) = [] /\ payload e = [].
Proof.
  intros P e x d1 ((Hw & _) & _) Ho Hp Hs. pose proof (se_pending_output P x d1 Ho Hp) as ->. split; [reflexivity|]. apply Hs. apply ioeff_refl. exact Hw.
Qed.
Lemma se_free : forall P N e (x d1 : dv), se_inv x -> se_output P x = Ok d1 -> wait x = None -> rst x = REOk -> se_tuned P x -> txav (io x) + N <= txsz (io x) -> 20 <= N -> se_put_says e x d1 ->
  exists y, quiet (io x) y /\ se_inv (set_io y x) /\ txav y + N <= txsz y /\ se_machine (set_io y x) = Ok d1 /\ se_put_says e (set_io y x) d1 /\ (sched (io x) = [] -> y = io x).
Proof.
  intros P N e x d1 HI Ho Hw Hr (G1 & G2 & G3 & G4 & G5 & _) Ht HN Hs.
  assert (H : exists y, quiet (io x) y /\ se_machine (set_io y x) = Ok d1 /\ (sched (io x) = [] -> y = io x)).
  { pose proof HI as ((Hwf & _) & Hcm). destruct (isr_point_quiet (io x) Hwf) as (y & E & Q). exists y. split; [exact Q|]. split; [|intro Es; exact (quiet_still _ _ Es E)].
    unfold se_output in Ho. rewrite Hw, Hr in Ho. cbn [re_ok negb] in Ho. unfold d_space, s_space_available in Ho. rewrite E in Ho. cbn [bind] in Ho.
    change (ring_space (lr (stx (ser y)))) with (txsz y - txav y) in Ho.
    destruct (Nat.ltb_spec (txsz y - txav y) 20) as [Hlt|Hge].
    - exfalso. apply quiet_ioeff in Q. pose proof (ioeff_av _ _ _ _ Q) as [_ A]. pose proof (ioeff_txsz _ _ _ _ Q). cbn [length] in A. lia.
    - change (rssi (set_io y x)) with (rssi x) in Ho.
      destruct (Z.eqb_spec (rssi x) INT16_MAX); [contradiction|]. cbn [andb] in Ho.
      unfold se_send_mac in Ho. change (ext (set_io y x)) with (ext x) in Ho. change (fl (set_io y x)) with (fl x) in Ho.
      unfold se_mac_request in G5. destruct (emac (ext x)) as [|c0 [|c1 cm]]; try discriminate Hcm. cbn [rd nth_error bind] in Ho.
      assert (Hc : char_is_ff P c1 && aeqb c0 NUL && fLine (fl x) = false).
      { unfold char_is_ff, aeqb. destruct (Ascii.eqb c0 NUL); cbn [andb] in *; [|rewrite andb_false_r; reflexivity].
        rewrite G5. reflexivity. }
      rewrite Hc in Ho. exact Ho. }
  destruct H as (y & Q & Hm & Hst).
  pose proof (quiet_ioeff _ _ Q) as QI. pose proof (ioeff_av _ _ _ _ QI) as [_ A]. pose proof (ioeff_txsz _ _ _ _ QI) as A2. cbn [length] in A.
  exists y. splits; auto; [split; [apply dok_quiet; [apply HI|exact Q]|apply HI]|lia|].
  intros t q Hi. apply Hs. exact (ioeff_trans _ _ _ _ _ _ _ QI Hi).
Qed.

(** *** The stages of a fetch *)
Definition se_ctl (x : dv) := (sst x, rst x, wait x, toReceive x, toRead x, fLine (fl x)).
Definition se_kept (P : plat) (d x : dv) : Prop :=
  se_tuned P x /\ (fIp (fl x), fDisc (fl x), fData (fl x)) = (true, false, false) /\ ip_is_connected x = true /\
  (ext x, wbuf x, typ x, host x, port x) = (ext d, wbuf d, typ d, host d, port d).
Definition se_on (P : plat) (d : dv) c r (x : dv) : Prop := se_kept P d x /\ se_ctl x = c /\ rbuf x = r.
Lemma se_on_shell : forall P d c r x x', se_on P d c r x -> shell x x' -> se_on P d c r x'.
Proof. intros P d c r x x' H ->. exact H. Qed.
Lemma se_on_io : forall P d c r y x, se_on P d c r x -> se_on P d c r (set_io y x).
Proof. intros P d c r y x H. exact H. Qed.

(** The request for [k] bytes. *)
Definition se_get (k : Z) : bytes := bs "AT+CIPRECVDATA=" ++ dec k.
Definition se_c0 := (SEConnected, REOk, @None bytes, 0%Z, 0%Z, true).
Definition se_c4 (n : Z) := (SESendCiprecvdata, REOk, @None bytes, n, 0%Z, true).
Definition se_c5 (n : Z) := (SEWaitReceive, REWaitCiprecvdata, @None bytes, n, 0%Z, true).
Definition se_c6 (n m : Z) := (SEReceiving, REOk, @None bytes, n, m, false).
Definition se_c7 (n : Z) := (SEReceiving, REOk, Some (bs "OK"), n, 0%Z, true).
Definition se_c8 (n : Z) := (SEReceiving, REOk, @None bytes, n, 0%Z, true).

Ltac on_inv H := let K := fresh "K" in let C := fresh "C" in let R := fresh "R" in
  pose proof H as (K & C & R); unfold se_ctl, se_c0, se_c4, se_c5, se_c6, se_c7, se_c8 in C; 
  let Cl := fresh "Cl" in apply pair_eq in C as [C Cl]; let Cm := fresh "Cm" in apply pair_eq in C as [C Cm]; let Cn := fresh "Cn" in apply pair_eq in C as [C Cn];
  let Cw := fresh "Cw" in apply pair_eq in C as [C Cw]; let Cr := fresh "Cr" in apply pair_eq in C as [C Cr]; let Cs := fresh "Cs" in rename C into Cs.

Lemma se_connected_idle : forall P d r (x d1 : dv), se_on P d se_c0 r x -> avail (wbuf d) = 0 -> se_machine x = Ok d1 -> io d1 = io x /\ se_on P d se_c0 r d1.
Proof.
  intros P d r x d1 H Ha Hm. on_inv H. destruct K as (G & F & I & E). injection F as F1 F2 F3. injection E as E1 E2 E3 E4 E5.
  unfold se_machine in Hm. rewrite Cs in Hm. unfold se_connected in Hm. rewrite E2, Ha, F3 in Hm. unfold at_handle_disconnect in Hm. cbn [fl set_cst] in Hm. rewrite F1, F2 in Hm. cbn [Nat.ltb Nat.leb snd] in Hm.
  apply ok_inj in Hm. subst d1. split; [reflexivity|]. split; [|split; [exact (proj1 (proj2 H))|exact R]]. unfold se_kept. splits; try reflexivity; try assumption; cbn [fl ext wbuf typ host port set_cst]; congruence.
Qed.
Lemma se_connected_data : forall P d r n (x d1 : dv), se_on P d se_c0 r x -> avail (wbuf d) = 0 -> se_machine (on_data true (set_toReceive n x)) = Ok d1 -> io d1 = io x /\ se_on P d (se_c4 n) r d1.
Proof.
  intros P d r n x d1 H Ha Hm. on_inv H. destruct K as (G & F & I & E). injection F as F1 F2 F3. injection E as E1 E2 E3 E4 E5.
  unfold se_machine in Hm. change (sst (on_data true (set_toReceive n x))) with (sst x) in Hm. rewrite Cs in Hm. unfold se_connected in Hm. change (wbuf (on_data true (set_toReceive n x))) with (wbuf x) in Hm. rewrite E2, Ha in Hm. cbn [Nat.ltb Nat.leb fl on_data set_toReceive fData] in Hm.
  cbv zeta in Hm. change (typ (set_cst csReceiving _)) with (typ x) in Hm. rewrite (proj2 (proj2 (proj2 (proj2 (proj2 G))))), Z.eqb_refl in Hm. apply ok_inj in Hm. subst d1. split; [reflexivity|]. split; [|split; [|exact R]].
  - unfold se_kept. splits; try reflexivity; try assumption; cbn; congruence.
  - unfold se_ctl, se_c4. cbn. congruence.
Qed.
(** As [wp_send_ciprcvdata], but with more about a refusal. *)
Lemma wp_send_ciprcvdata_still : forall (U : Prop) (d : dv) (Q : _ -> Prop), swf d -> fits (rxsz (io d)) -> (0 <= toReceive d)%Z ->
  (forall y, ioeff (io d) y [] [] -> (sched (io d) = [] -> rxsz (io d) - rxav (io d) <= 30 \/ ring_space (rbuf d) = 0) -> Q (false, set_io y d)) ->
  (forall y1 y n, ioeff (io d) y1 [] [] -> wroteb y1 y (ciprcvdata_cmd n) -> 0 < ring_space (rbuf d) ->
     n = Z.min (Z.min (Z.min (u64 (Z.of_nat (rxsz (io d)) - Z.of_nat (rxav y1) - 30)) (toReceive d))
                      (Z.of_nat (ring_space (rbuf d)))) 2048 ->
     (sched (io d) = [] -> y1 = io d /\ 30 < rxsz (io d) - rxav (io d)) ->
     Q (true, set_io y d)) ->
  wp U (se_send_ciprcvdata d) Q.
Proof.
  intros U d Q H Hf Ht HQ1 HQ2. unfold se_send_ciprcvdata. apply wp_bind. apply wp_rx_request_still; auto.
  intros y1 n E1 Hsp Hn Hs. pose proof (u64_range (Z.of_nat (rxsz (io d)) - Z.of_nat (rxav y1) - 30)).
  change (Z.of_nat 30) with 30%Z in Hn. unfold ESPRESSIF_MAX_RX in Hn.
  rewrite sprintf6_ok by lia. cbn [bind].
  apply wp_bind. apply wp_w_str; [wfser|]. intros y2 B2.
  apply wp_bind. apply wp_w_str; [dsimp; wfser|]. intros y3 B3.
  apply wp_bind. apply wp_w_str; [dsimp; wfser|]. intros y4 B4. dsimp. cbn [wp].
  specialize (HQ2 y1 y4 n E1). dsimp. apply HQ2; auto. unfold ciprcvdata_cmd.
  eapply wroteb_trans; [exact B2|]. eapply wroteb_trans; [|exact B4].
  rewrite cbody_free in B3 by (apply digits_free, dec_digits). exact B3.
Qed.
(** The request; [a]: the bytes in the port's receive buffer when its size was chosen. *)
Definition se_wants (d : dv) (n : Z) (a : nat) (r : ring ascii) : Z :=
  Z.min (Z.min (Z.min (u64 (Z.of_nat (rxsz (io d)) - Z.of_nat a - 30)) n) (Z.of_nat (ring_space r))) 2048.
Lemma se_asks_data : forall P d n r (x : dv), se_inv x -> se_on P d (se_c4 n) r x -> rxsz (io x) = rxsz (io d) -> (0 < n)%Z ->
  wp True (se_machine x) (fun d1 =>
    (ioeff (io x) (io d1) [] [] /\ se_on P d (se_c4 n) r d1 /\ (sched (io x) = [] -> rxsz (io x) - rxav (io x) <= 30 \/ ring_space r = 0)) \/
    (se_on P d (se_c5 n) r d1 /\ exists a, a <= rxsz (io d) /\ wroteb (io x) (io d1) (se_get (se_wants d n a r) ++ [CR; LF]) /\
       (sched (io x) = [] -> a = rxav (io x) /\ a + 30 < rxsz (io d)))).
Proof.
  intros P d n r x HI H Hrx Hn. on_inv H. destruct K as (G & F & I & E). injection F as F1 F2 F3. injection E as E1 E2 E3 E4 E5.
  pose proof HI as ((Hw & Hfr & _ & _ & _ & _ & _ & _ & _ & _ & _ & Hto & _) & _).
  unfold se_machine. rewrite Cs. unfold at_handle_disconnect. rewrite F2. rewrite Cn in *.
  destruct (Z.ltb_spec 0 n) as [_|]; [|lia].
  apply wp_bind. apply wp_send_ciprcvdata_still; [exact Hw|exact Hfr|lia| |].
  - intros y Hy Hz. cbn [wp]. left. rewrite R in Hz. splits; auto.
  - intros y1 y k Hy Hwr Hsp Hk Hz. cbn [wp]. right. split.
    * split; [exact (proj1 H)|]. split; [|exact R]. unfold se_ctl, se_c5. cbn. congruence.
    * exists (rxav y1). rewrite R, Hrx, Cn in *. fold (se_wants d n (rxav y1) r) in Hk.
      assert (W1 : serial_wf (ser y1)) by exact (ioeff_wf _ _ _ _ Hy). pose proof (rx_le _ W1) as R1. destruct (ioeff_caps _ _ _ _ Hy) as [C1 _].
      split; [lia|]. split; [|intro Hs; destruct (Hz Hs) as [-> ?]; split; [reflexivity|lia]].
      rewrite <- Hk. unfold se_get. rewrite <- app_assoc. exact (wroteb_ioeff _ _ _ _ Hy Hwr).
Qed.
(** Payload is taken from the port when all of it has arrived. *)
Lemma se_takes : forall P d n m r (x : dv), se_inv x -> se_on P d (se_c6 n m) r x -> (0 < m)%Z -> ring_ok r -> (Z.of_nat (avail r) + m <= Z.of_nat (rsize r))%Z ->
  wp True (se_machine x) (fun d1 =>
    (ioeff (io x) (io d1) [] [] /\ se_on P d (se_c6 n m) r d1) \/
    (exists tk r', ioeff (io x) (io d1) tk [] /\ Z.of_nat (length tk) = m /\ ring_ok r' /\ contents r' = contents r ++ tk /\ rsize r' = rsize r /\ se_on P d (se_c7 n) r' d1)).
Proof.
  intros P d n m r x HI H Hm Hok Hfit. on_inv H. pose proof HI as ((Hw & _ & _ & Hrw & Hrs & _) & _).
  unfold se_machine. rewrite Cs, Cm. destruct (Z.ltb_spec 0 m); [|lia]. apply wp_bind. rewrite <- Cm in *. apply wp_receive; [exact Hw|exact Hrw|exact Hrs|lia| |].
  - intros y Hy _. cbn [wp]. left. split; [exact Hy|exact H].
  - intros y tk r' Hy Hl Hw' Hz Hc. cbn [wp]. right. assert (Ht : typ x = TCP) by apply (proj1 K). cbn [typ set_io set_rbuf set_toRead on_line andb]. change (typ _) with (typ x). rewrite Ht, Z.eqb_refl. rewrite R in *. destruct (Hc Hok ltac:(lia)) as [O1 O2]. exists tk, r'. splits; auto.
    split; [exact (proj1 H)|]. split; [|reflexivity]. unfold se_ctl, se_c7. cbn. congruence.
Qed.
Lemma se_goes_on : forall P d n r (x d1 : dv), se_on P d (se_c8 n) r x -> (0 <= n)%Z -> se_machine x = Ok d1 ->
  io d1 = io x /\ se_on P d (if (0 <? n)%Z then se_c4 n else se_c0) r d1.
Proof.
  intros P d n r x d1 H Hn Hm. on_inv H. unfold se_machine in Hm. rewrite Cs, Cm, Cn in Hm. cbn [Z.ltb Z.compare] in Hm. apply ok_inj in Hm. subst d1. split; [reflexivity|].
  split; [exact (proj1 H)|]. split; [|exact R]. unfold se_ctl, se_c4, se_c0. destruct (Z.ltb_spec 0 n); cbn; [|replace n with 0%Z in * by lia]; congruence.
Qed.

(** *** Lines *)
Lemma set_wait_same : forall x : dv, set_wait (wait x) x = x.
Proof. intros x; destruct x; reflexivity. Qed.
Lemma se_hear_notice : forall P L (x : dv) d r n, se_on P d se_c0 r x -> prefixb (bs "+IPD") L = true -> number P (skipn 5 L) = n -> modest n -> se_hear P L x = on_data true (set_toReceive n x).
Proof.
  intros P L x d r n H HL Hv Hn. on_inv H. unfold se_hear. rewrite HL, Hv, Cr, Cw, (modest_i32 n Hn). rewrite u64_small by (unfold modest in Hn; lia). cbn [se_wait_after]. rewrite <- Cw, set_wait_same. reflexivity.
Qed.
Lemma se_hear_header : forall P L (x : dv) d r n m, se_on P d (se_c5 n) r x -> is_head L = true -> prefixb (bs "+CIPRECVDATA") L = true -> number P (skipn 13 L) = m -> modest n -> (0 <= m <= n)%Z ->
  se_on P d (se_c6 (n - m) m) r (se_hear P L x).
Proof.
  intros P L x d r n m H HL Hp Hv Hn Hm. on_inv H. unfold se_hear. unfold modest in Hn. rewrite HL, Hv, (modest_i32 m) by (unfold modest; lia). rewrite Cr, Cw. cbn [se_wait_after].
  assert (Hi : prefixb (bs "+IPD") L = false) by (apply prefixb_spec in Hp as [t ->]; reflexivity). rewrite Hi.
  split; [|split; [|exact R]].
  - destruct K as (G & F & I & E). unfold se_kept. splits; try assumption.
  - unfold se_ctl, se_c6. cbn [sst rst wait toReceive toRead fl set_sst set_rst set_toReceive set_toRead set_wait on_line fLine]. rewrite Cn, Cm. rewrite !u64_small by lia. rewrite Z.add_0_l. reflexivity.
Qed.
Lemma se_hear_ok7 : forall P L (x : dv) d r n, se_on P d (se_c7 n) r x -> prefixb (bs "OK") L = true -> se_on P d (se_c8 n) r (se_hear P L x).
Proof.
  intros P L x d r n H HL. on_inv H. unfold se_hear. rewrite Cr, Cw. cbn [se_wait_after]. rewrite HL.
  pose proof HL as HL'. apply prefixb_spec in HL' as [t ->]. change (prefixb (bs "+IPD") _) with false. cbn iota.
  split; [exact K|]. split; [|exact R]. unfold se_ctl, se_c8. cbn [sst rst wait toReceive toRead fl set_wait]. congruence.
Qed.
Lemma se_plain : forall w L, In w ["OK"; "+IPD"; "+CIPRECVDATA"]%string -> prefixb (bs w) L = true ->
  se_ending L = false.
Proof. intros w L Hin H. apply prefixb_spec in H as [t ->]. cbn [In] in Hin. repeat destruct Hin as [<-|Hin]; try (split; reflexivity). contradiction. Qed.

(** *** Dialogues *)
Definition se_at (P : plat) (d : dv) c r (x : dv) : Prop := se_on P d c r x /\ rxsz (io x) = rxsz (io d).
Lemma se_step_rxsz : forall P (d : dv) e d', se_step P d e d' -> rxsz (io d') = rxsz (io d).
Proof.
  intros P d e d' (_ & _ & _ & _ & _ & Hst & _). exact (wire_rxsz _ _ _ Hst).
Qed.
Lemma se_look_all : forall P d c r (x : dv) e x', se_step P x e x' -> looks (e_op e) = true -> se_at P d c r x -> se_at P d c r x' /\ put (e_ev e) = [] /\ payload e = [].
Proof.
  intros P d c r x e x' Hs Hl [H1 H2]. destruct (se_look P x e x' Hs Hl) as [E1 E2]. pose proof (se_step_rxsz _ _ _ _ Hs) as E3. split; [|split; [exact E2|]].
  - split; [rewrite E1; exact H1|congruence].
  - destruct Hs as (_ & _ & _ & _ & _ & _ & _ & _ & z & Hc & _). unfold callrel in Hc. unfold payload. destruct (e_op e); try discriminate Hl; destruct Hc as [-> _]; reflexivity.
Qed.

(** Runs that do nothing. *)
Definition se_stable P N d c r : Prop := forall q x e x', se_step P x e x' -> roomy N x e -> aside se_hum q e -> se_at P d c r x ->
  se_at P d c r x' /\ put (e_ev e) = [] /\ payload e = [].
Lemma se_stable_pending : forall P N d s rp w n m ln r, rp = REOk \/ rp = REWaitCiprecvdata -> se_rank SEConnected <= se_rank s ->
  w = None \/ w = Some (bs "OK") -> w <> None \/ rp <> REOk -> se_stable P N d (s, rp, w, n, m, ln) r.
Proof.
  intros P N d s rp w n m ln r Hrp Hk Hw Hp q x e x' Hs Hr Ha [H Hz]. on_inv H. pose proof K as (G & F & _ & _). injection F as F1 F2 F3.
  assert (Hf : se_fetches x) by (split; [rewrite Cr; exact Hrp|split; [rewrite Cs; exact Hk|apply G]]).
  destruct (se_turns_aside P N x e x' q Hs Hr Ha G F2 Hf ltac:(rewrite Cw; exact Hw)) as (y & d1 & A1 & A2 & A3 & A4 & A5 & A6 & A7).
  pose proof (se_on_shell _ _ _ _ _ _ H A1) as H1. destruct (se_still P e y d1 A2 A5) as (-> & P1 & P2); [|exact A7|].
  { on_inv H1. unfold se_pending. rewrite Cw0, Cr0. exact Hp. }
  split; [|split; assumption]. split; [rewrite A6; exact H1|]. rewrite (se_step_rxsz _ _ _ _ Hs). exact Hz.
Qed.
Lemma se_stable_connected : forall P N d r, 20 <= N -> avail (wbuf d) = 0 -> se_stable P N d se_c0 r.
Proof.
  intros P N d r HN Hv q x e x' Hs Hr Ha [H Hz]. on_inv H. pose proof K as (G & F & _ & _). injection F as F1 F2 F3.
  assert (Hf : se_fetches x) by (split; [rewrite Cr; tauto|split; [rewrite Cs; cbn; lia|apply G]]).
  destruct (se_turns_aside P N x e x' q Hs Hr Ha G F2 Hf ltac:(rewrite Cw; tauto)) as (y & d1 & A1 & A2 & A3 & A4 & A5 & A6 & A7).
  pose proof (se_on_shell _ _ _ _ _ _ H A1) as H1. on_inv H1.
  destruct (se_free P N e y d1 A2 A5 Cw0 Cr0 (proj1 K0) A3 HN A7) as (z & Q & B1 & B2 & B3 & B4 & B5).
  destruct (se_connected_idle P d r (set_io z y) d1 H1 Hv B3) as (E1 & E2).
  assert (Hn : put (e_ev e) = [] /\ payload e = []) by (apply B4; rewrite E1; apply ioeff_refl; apply B1).
  split; [|exact Hn]. split; [rewrite A6; exact E2|]. rewrite (se_step_rxsz _ _ _ _ Hs). exact Hz.
Qed.
Lemma se_upto : forall P N d0 c r p ps d tr d', dialogue (se_step P) se_hum N (p :: ps) d tr d' -> se_at P d0 c r d -> p = None \/ se_stable P N d0 c r ->
  exists d1 e d2 tr2, sent tr = put (e_ev e) ++ sent tr2 /\ payloads tr = payload e ++ payloads tr2 /\ se_at P d0 c r d1 /\
    se_step P d1 e d2 /\ roomy N d1 e /\ hears p e /\ dialogue (se_step P) se_hum N ps d2 tr2 d'.
Proof.
  intros P N d0 c r p ps d tr d' Hd Ha Hst.
  destruct (dialogue_till (se_step P) se_hum N p ps d tr d' (fun s t x => s = [] /\ t = [] /\ se_at P d0 c r x)) with (s := @nil ascii) (t := @nil ascii) as (tr1 & e & tr2 & d1 & d2 & E & (K1 & K2 & K3) & Hs & Hr & Hh & Hd2).
  - intros s t x e x' Hs Hl (-> & -> & H). destruct (se_look_all P d0 c r x e x' Hs Hl H) as (B1 & B2 & B3). splits; auto.
  - intros q Hq s t x e x' Hs Hr Hi (-> & -> & H). destruct Hst as [Hst|Hst]; [congruence|]. destruct (Hst q x e x' Hs Hr Hi H) as (B1 & B2 & B3). rewrite B2, B3. splits; auto.
  - exact Hd.
  - splits; auto.
  - cbn [app] in K1, K2. exists d1, e, d2, tr2. splits; auto; rewrite E.
    + rewrite sent_app, K1. reflexivity.
    + rewrite payloads_app, K2. reflexivity.
Qed.

(** The notice starts a fetch. *)
Lemma se_stage_notice : forall P N ps d0 r n d tr d', dialogue (se_step P) se_hum N (noticed P n :: ps) d tr d' -> se_at P d0 se_c0 r d -> 20 <= N -> avail (wbuf d0) = 0 -> modest n ->
  exists d2 tr2, sent tr = sent tr2 /\ payloads tr = payloads tr2 /\ se_at P d0 (se_c4 n) r d2 /\ dialogue (se_step P) se_hum N ps d2 tr2 d'.
Proof.
  intros P N ps d0 r n d tr d' Hd Ha HN Hv Hn.
  destruct (se_upto P N d0 _ r _ _ d tr d' Hd Ha (or_intror (se_stable_connected P N d0 r HN Hv))) as (x & e & d2 & tr2 & E1 & E2 & [H Hz] & Hs & Hr & Hh & Hd2).
  on_inv H. pose proof K as (G & F & _ & _). injection F as F1 F2 F3. assert (Hf : se_fetches x) by (split; [rewrite Cr; tauto|split; [rewrite Cs; cbn; lia|apply G]]).
  destruct (se_turns P N x e d2 _ Hs Hr Hh G F2 Hf) as (o & y & d1 & A0 & A1 & A2 & _ & _ & _ & A3 & A4 & A5 & A6 & A7).
  { intros q L Eq HL. unfold noticed in Eq. apply some_eq in Eq. subst q. exact (se_plain "+IPD" L ltac:(cbn; tauto) (proj1 HL)). }
  destruct o as [L|]; [|destruct A0]. cbn [heard_as noticed heard] in *. pose proof (se_on_shell _ _ _ _ _ _ H A1) as H1. rewrite (se_hear_notice P L y d0 r n H1 (proj1 A0) (proj2 A0) Hn) in *. on_inv H1.
  destruct (se_free P N e (on_data true (set_toReceive n y)) d1 A2 A5 Cw0 Cr0 (proj1 K0) A3 HN A7) as (z & Q & B1 & B2 & B3 & B4 & B5).
  destruct (se_connected_data P d0 r n (set_io z y) d1 H1 Hv B3) as (I1 & I2).
  assert (Hnn : put (e_ev e) = [] /\ payload e = []) by (apply B4; rewrite I1; apply ioeff_refl; apply B1). destruct Hnn as [N1 N2].
  exists d2, tr2. rewrite E1, E2, N1, N2. splits; auto. split; [rewrite A6; exact I2|]. rewrite (se_step_rxsz _ _ _ _ Hs). exact Hz.
Qed.

(** A run() without interrupts asks. *)
Lemma se_ask_now : forall P N d0 n r x e x', se_at P d0 (se_c4 n) r x -> (0 < n)%Z -> se_step P x e x' -> roomy N x e -> hears None e -> e_sch e = [] -> 40 <= N -> 30 < rxsz (io d0) -> 0 < ring_space r ->
  payload e = [] /\ se_at P d0 (se_c5 n) r x' /\ fits (rxsz (io d0)) /\ put (e_ev e) = se_get (se_wants d0 n 0 r) ++ [CR; LF].
Proof.
  intros P N d0 n r x e x' [H Hz] Hn Hs Hr Hh He HN Hrx Hsp.
  on_inv H. pose proof K as (G & F & _ & _). injection F as F1 F2 F3. assert (Hf : se_fetches x) by (split; [rewrite Cr; tauto|split; [rewrite Cs; cbn; lia|apply G]]).
  destruct (se_turns P N x e x' _ Hs Hr Hh G F2 Hf ltac:(discriminate)) as (o & y & d1 & A0 & A1 & A2 & _ & A8 & A9 & A3 & A4 & A5 & A6 & A7).
  destruct o as [L|]; [destruct A0|]. cbn [heard] in *. pose proof (se_on_shell _ _ _ _ _ _ H A1) as H1. on_inv H1. specialize (A8 eq_refl Cl). specialize (A9 eq_refl He).
  destruct (se_free P N e y d1 A2 A5 Cw0 Cr0 (proj1 K0) A3 ltac:(lia) A7) as (z & Q & B1 & B2 & B3 & B4 & B5).
  pose proof (B5 A9) as Hzz. subst z.
  pose proof (se_asks_data P d0 n r (set_io (io y) y) B1 H1 ltac:(cbn [io set_io]; congruence) Hn) as T. rewrite B3 in T. cbn [wp io set_io] in T.
  assert (Hx : rxsz (io x') = rxsz (io d0)) by (rewrite (se_step_rxsz _ _ _ _ Hs); exact Hz).
  destruct T as [(T2 & T3 & T4)|(T2 & a & T3 & (q & I1 & _ & I2) & T5)].
  - exfalso. destruct (T4 A9); lia.
  - destruct (B4 _ _ I1) as [N1 N2]. split; [exact N2|]. split; [split; [rewrite A6; exact T2|exact Hx]|]. destruct (T5 A9) as [-> _]. rewrite A8 in *.
    split; [pose proof B1 as ((_ & Hfr & _) & _); cbn [io set_io] in Hfr; rewrite <- Hz, <- A4; exact Hfr|]. rewrite N1. apply I2.
    pose proof (proj2 (dec_digits (se_wants d0 n 0 r))).
    unfold se_get. rewrite !app_length. cbn [length bs list_ascii_of_string]. lia.
Qed.

(** The data comes. *)
Definition se_taking (P : plat) (d : dv) (n m : Z) (r : ring ascii) (s t : bytes) (x : dv) : Prop :=
  s = [] /\ ((t = [] /\ se_at P d (se_c6 n m) r x) \/
    (exists r', Z.of_nat (length t) = m /\ ring_ok r' /\ contents r' = contents r ++ t /\ rsize r' = rsize r /\ se_at P d (se_c7 n) r' x)).
Lemma se_machine_takes : forall P d0 n m r (x : dv) e d1 d2 z xx, se_step P xx e d2 -> rxsz (io xx) = rxsz (io d0) -> d2 = set_io (io d2) d1 -> se_inv (set_io z x) -> se_on P d0 (se_c6 n m) r x ->
  (0 < m)%Z -> ring_ok r -> (Z.of_nat (avail r) + m <= Z.of_nat (rsize r))%Z -> se_machine (set_io z x) = Ok d1 -> se_put_says e (set_io z x) d1 ->
  se_taking P d0 n m r (put (e_ev e)) (payload e) d2.
Proof.
  intros P d0 n m r x e d1 d2 z xx Hs Hzz A6 B1 H1 Hm Hok Hfit B3 B4.
  pose proof (se_takes P d0 n m r (set_io z x) B1 H1 Hm Hok Hfit) as T. rewrite B3 in T. cbn [wp io set_io] in T.
  assert (Hx : rxsz (io d2) = rxsz (io d0)) by (rewrite (se_step_rxsz _ _ _ _ Hs); exact Hzz).
  destruct T as [(T1 & T2)|(tk & r' & T1 & T2 & T3 & T4 & T5 & T6)]; destruct (B4 _ _ T1) as [-> ->]; (split; [reflexivity|]).
  - left. split; [reflexivity|]. split; [rewrite A6; exact T2|exact Hx].
  - right. exists r'. splits; auto. split; [rewrite A6; exact T6|exact Hx].
Qed.
Lemma se_stage_data : forall P N ps d0 r n m d tr d', dialogue (se_step P) se_hum N (headed P m :: reply (bs "OK") :: ps) d tr d' -> se_at P d0 (se_c5 n) r d -> modest n ->
  (0 < m <= n)%Z -> ring_ok r -> (Z.of_nat (avail r) + m <= Z.of_nat (rsize r))%Z -> 40 <= N ->
  exists d2 tr2 tk r', sent tr = sent tr2 /\ payloads tr = tk ++ payloads tr2 /\ dialogue (se_step P) se_hum N ps d2 tr2 d' /\
    Z.of_nat (length tk) = m /\ ring_ok r' /\ contents r' = contents r ++ tk /\ rsize r' = rsize r /\ se_at P d0 (if (0 <? n - m)%Z then se_c4 (n - m) else se_c0) r' d2.
Proof.
  intros P N ps d0 r n m d tr d' Hd Ha Hn Hm Hok Hfit HN.
  assert (Hst : se_stable P N d0 (se_c5 n) r) by (apply se_stable_pending; [tauto|cbn; lia|tauto|right; discriminate]).
  destruct (se_upto P N d0 _ r _ _ d tr d' Hd Ha (or_intror Hst)) as (x & e & d2 & tr2 & E1 & E2 & [H Hz] & Hs & Hr & Hh & Hd2).
  assert (HT : se_taking P d0 (n - m) m r (put (e_ev e)) (payload e) d2).
  { on_inv H. pose proof K as (G & F & _ & _). injection F as F1 F2 F3. assert (Hf : se_fetches x) by (split; [rewrite Cr; tauto|split; [rewrite Cs; cbn; lia|apply G]]).
    destruct (se_turns P N x e d2 _ Hs Hr Hh G F2 Hf) as (o & y & d1 & A0 & A1 & A2 & _ & _ & _ & A3 & A4 & A5 & A6 & A7).
    { intros q L Eq HL. unfold headed in Eq. apply some_eq in Eq. subst q. exact (se_plain "+CIPRECVDATA" L ltac:(cbn; tauto) (proj1 (headed_ok P m L HL))). }
    destruct o as [L|]; [|destruct A0]. cbn [heard_as headed heard] in *. apply (headed_ok P m L) in A0. pose proof (se_on_shell _ _ _ _ _ _ H A1) as H1.
    pose proof (se_hear_header P L y d0 r n m H1 (proj1 (proj2 A0)) (proj1 A0) (proj2 (proj2 A0)) Hn ltac:(lia)) as H2. on_inv H2.
    assert (Hio : io (se_hear P L y) = io y) by (unfold se_hear; repeat match goal with |- context [match ?c with _ => _ end] => destruct c end; reflexivity).
    destruct (se_free P N e _ d1 A2 A5 Cw0 Cr0 (proj1 K0) ltac:(rewrite Hio; exact A3) ltac:(lia) A7) as (z & Q & B1 & B2 & B3 & B4 & B5).
    exact (se_machine_takes P d0 (n - m) m r _ e d1 d2 z x Hs Hz A6 B1 H2 ltac:(lia) Hok Hfit B3 B4). }
  clear Hs Hr Hh H Hz.
  destruct (dialogue_till (se_step P) se_hum N (reply (bs "OK")) ps d2 tr2 d' (se_taking P d0 (n - m) m r)) with (s := put (e_ev e)) (t := payload e) as (tr3 & e3 & tr4 & x3 & d4 & E & K & Hs & Hr & Hh & Hd4).
  - intros s t x0 e0 x' Hs Hl (-> & [[-> K]|(r' & K1 & K2 & K3 & K4 & K5)]).
    + destruct (se_look_all P d0 _ r x0 e0 x' Hs Hl K) as (B1 & B2 & B3). split; [|auto]. split; [reflexivity|]. left. auto.
    + destruct (se_look_all P d0 _ r' x0 e0 x' Hs Hl K5) as (B1 & B2 & B3). split; [|auto]. split; [reflexivity|]. right. exists r'. splits; auto.
  - intros q Hq s t x0 e0 x' Hs Hr Hi (-> & [[-> [H Hz]]|(r' & K1 & K2 & K3 & K4 & K5)]).
    + cbn [app]. on_inv H. pose proof K as (G & F & _ & _). injection F as F1 F2 F3. assert (Hf : se_fetches x0) by (split; [rewrite Cr; tauto|split; [rewrite Cs; cbn; lia|apply G]]).
      destruct (se_turns_aside P N x0 e0 x' q Hs Hr Hi G F2 Hf ltac:(rewrite Cw; tauto)) as (y & d1 & A1 & A2 & A3 & A4 & A5 & A6 & A7).
      pose proof (se_on_shell _ _ _ _ _ _ H A1) as H1. on_inv H1.
      destruct (se_free P N e0 y d1 A2 A5 Cw0 Cr0 (proj1 K0) A3 ltac:(lia) A7) as (z & Q & B1 & B2 & B3 & B4 & B5).
      exact (se_machine_takes P d0 (n - m) m r _ e0 d1 x' z x0 Hs Hz A6 B1 H1 ltac:(lia) Hok Hfit B3 B4).
    + assert (Hst7 : se_stable P N d0 (se_c7 (n - m)) r') by (apply se_stable_pending; [tauto|cbn; lia|tauto|left; discriminate]).
      destruct (Hst7 q x0 e0 x' Hs Hr Hi K5) as (B1 & B2 & B3). rewrite B2, B3, !app_nil_r. split; [reflexivity|]. right. exists r'. splits; auto.
  - exact Hd2.
  - exact HT.
  - destruct K as (Ks & [[Kt [H Hz]]|(r' & K1 & K2 & K3 & K4 & [H Hz])]).
    + exfalso. on_inv H. pose proof K as (G & F & _ & _). injection F as F1 F2 F3. assert (Hf : se_fetches x3) by (split; [rewrite Cr; tauto|split; [rewrite Cs; cbn; lia|apply G]]).
      destruct (se_turns P N x3 e3 d4 _ Hs Hr Hh G F2 Hf) as (o & y & d1 & A0 & A1 & A2 & A8 & _).
      { intros q L Eq HL. unfold reply in Eq. apply some_eq in Eq. subst q. exact (se_plain "OK" L ltac:(cbn; tauto) HL). }
      destruct o as [L|]; [|destruct A0]. specialize (A8 ltac:(discriminate)). congruence.
    + on_inv H. pose proof K as (G & F & _ & _). injection F as F1 F2 F3. assert (Hf : se_fetches x3) by (split; [rewrite Cr; tauto|split; [rewrite Cs; cbn; lia|apply G]]).
      destruct (se_turns P N x3 e3 d4 _ Hs Hr Hh G F2 Hf) as (o & y & d1 & A0 & A1 & A2 & _ & _ & _ & A3 & A4 & A5 & A6 & A7).
      { intros q L Eq HL. unfold reply in Eq. apply some_eq in Eq. subst q. exact (se_plain "OK" L ltac:(cbn; tauto) HL). }
      destruct o as [L|]; [|destruct A0]. cbn [heard_as reply heard] in *. pose proof (se_on_shell _ _ _ _ _ _ H A1) as H1.
      pose proof (se_hear_ok7 P L y d0 r' (n - m) H1 A0) as H2. on_inv H2.
      assert (Hio : io (se_hear P L y) = io y) by (unfold se_hear; repeat match goal with |- context [match ?c with _ => _ end] => destruct c end; reflexivity).
      destruct (se_free P N e3 _ d1 A2 A5 Cw0 Cr0 (proj1 K0) ltac:(rewrite Hio; exact A3) ltac:(lia) A7) as (z & Q & B1 & B2 & B3 & B4 & B5).
      destruct (se_goes_on P d0 (n - m) r' (set_io z (se_hear P L y)) d1 H2 ltac:(lia) B3) as (I1 & I2).
      destruct (B4 [] []) as [N1 N2]; [rewrite I1; apply ioeff_refl; apply B1|].
      exists d4, tr4, (payload e ++ payloads tr3), r'. splits; auto.
      * rewrite E1, E, sent_app, sent_cons, N1, !app_assoc, Ks. reflexivity.
      * rewrite E2, E, payloads_app, payloads_cons, N2. cbn [app]. rewrite app_assoc. reflexivity.
      * split; [rewrite A6; exact I2|]. rewrite (se_step_rxsz _ _ _ _ Hs). exact Hz.
Qed.

Lemma se_rest_at : forall P N d0 c r d tr d', dialogue (se_step P) se_hum N [] d tr d' -> se_at P d0 c r d -> sent tr = [] /\ payloads tr = [] /\ se_at P d0 c r d'.
Proof. intros P N d0 c r d tr d' Hd Ha. refine (dialogue_rest _ _ N d tr d' (se_at P d0 c r) _ Hd Ha). intros x e x'. apply se_look_all. Qed.

Lemma se_chunks : forall P N d0 ms d tr d', chunks (se_step P) se_hum N (headed P) d ms tr d' -> forall n r, se_at P d0 (se_c4 n) r d -> modest n -> (0 < n)%Z -> Forall (fun m => (0 < m)%Z) ms -> fold_right Z.add 0%Z ms = n ->
  ring_ok r -> (Z.of_nat (avail r) + n <= Z.of_nat (rsize r))%Z -> 30 < rxsz (io d0) -> 40 <= N ->
  exists ks r', sent tr = commands (map se_get ks) /\ length ks = length ms /\ Forall (fun k => (0 < k <= n)%Z /\ (k <= 2048)%Z /\ (k + 30 <= Z.of_nat (rxsz (io d0)))%Z) ks /\
    contents r' = contents r ++ payloads tr /\ Z.of_nat (length (payloads tr)) = n /\ ring_ok r' /\ rsize r' = rsize r /\ se_at P d0 se_c0 r' d'.
Proof.
  intros P N d0 ms d tr d' Hc. induction Hc as [d|d e d1 m ms tr d2 tr2 d' Hs Hr Hh He Hd Hc IH]; intros n r Ha Hn Hp Hms Hsum Hok Hfit Hrx HN; [cbn in Hsum; lia|].
  apply Forall_cons_iff in Hms as [Hm Hms]. cbn [fold_right] in Hsum.
  assert (Hrest : (0 <= fold_right Z.add 0 ms)%Z) by (clear -Hms; induction Hms; cbn [fold_right]; lia).
  destruct (se_ask_now P N d0 n r d e d1 Ha Hp Hs Hr Hh He HN Hrx ltac:(unfold ring_space; lia)) as (Pe & Hat & Hfx & Hask).
  destruct (se_stage_data P N [] d0 r n m d1 tr d2 Hd Hat Hn ltac:(lia) Hok ltac:(lia) HN) as (x2 & tr3 & tk & r' & Z1 & Z2 & Z3 & Z4 & Z5 & Z6 & Z7 & Z8).
  destruct (se_rest_at P N d0 _ r' x2 tr3 d2 Z3 Z8) as (Z9 & Z10 & Z11). rewrite Z9 in Z1. rewrite Z10, app_nil_r in Z2.
  assert (Hk : (0 < se_wants d0 n 0 r <= n)%Z /\ (se_wants d0 n 0 r <= 2048)%Z /\ (se_wants d0 n 0 r + 30 <= Z.of_nat (rxsz (io d0)))%Z).
  { unfold fits in Hfx. unfold se_wants, ring_space. rewrite u64_small by lia. lia. }
  assert (Hav : avail r' = avail r + length tk).
  { rewrite <- (contents_length _ (proj1 Z5)), <- (contents_length _ (proj1 Hok)), Z6, app_length. reflexivity. }
  destruct (Z.ltb_spec 0 (n - m)) as [Hlt|Hge].
  - destruct (IH (n - m)%Z r') as (ks & r2 & K1 & K2 & K3 & K4 & K5 & K6 & K7 & K8); try assumption; try lia.
    + unfold modest in *. lia.
    + exists (se_wants d0 n 0 r :: ks), r2. rewrite sent_cons, payloads_cons, sent_app, payloads_app, Pe, Z1, Z2, Hask, K1. cbn [app map length]. splits; auto.
      * apply Forall_cons; [exact Hk|]. eapply Forall_impl; [|exact K3]. cbv beta. intros; lia.
      * rewrite K4, Z6, app_assoc. reflexivity.
      * rewrite app_length. lia.
      * congruence.
  - assert (ms = []) as -> by (destruct ms as [|m2 ms]; [reflexivity|]; apply Forall_cons_iff in Hms as [Hm2 Hms]; cbn [fold_right] in *; assert (0 <= fold_right Z.add 0 ms)%Z by (clear -Hms; induction Hms; cbn [fold_right]; lia); lia).
    destruct (chunks_nil _ _ _ _ _ _ _ Hc) as [-> ->]. exists [se_wants d0 n 0 r], r'. cbn [fold_right] in *. rewrite sent_cons, payloads_cons, sent_app, payloads_app, Pe, Z1, Z2, Hask. cbn [app map length sent payloads concat]. rewrite !app_nil_r. splits; auto; try lia.
    unfold commands. cbn [map concat]. rewrite app_nil_r. reflexivity.
Qed.

(** The module's notice of [n] bytes. *)
Definition se_fetch_replies (P : plat) (n : Z) : list (option (bytes -> Prop)) := [noticed P n].

Theorem se_fetches_all : forall P N n ms d tr1 d1 tr2 d2, se_on P d se_c0 (rbuf d) d -> avail (wbuf d) = 0 -> ring_ok (rbuf d) ->
  dialogue (se_step P) se_hum N (se_fetch_replies P n) d tr1 d1 -> chunks (se_step P) se_hum N (headed P) d1 ms tr2 d2 ->
  modest n -> Forall (fun m => (0 < m)%Z) ms -> fold_right Z.add 0%Z ms = n -> (0 < n)%Z -> (Z.of_nat (avail (rbuf d)) + n <= Z.of_nat (rsize (rbuf d)))%Z -> 30 < rxsz (io d) -> 40 <= N ->
  exists ks, sent (tr1 ++ tr2) = commands (map se_get ks) /\ length ks = length ms /\ Forall (fun k => (0 < k <= n)%Z /\ (k <= 2048)%Z /\ (k + 30 <= Z.of_nat (rxsz (io d)))%Z) ks /\
    contents (rbuf d2) = contents (rbuf d) ++ payloads (tr1 ++ tr2) /\ Z.of_nat (length (payloads (tr1 ++ tr2))) = n /\
    ring_ok (rbuf d2) /\ rsize (rbuf d2) = rsize (rbuf d) /\ se_on P d se_c0 (rbuf d2) d2.
Proof.
  intros P N n ms d tr1 d1 tr2 d2 H0 Hv Hok Hd1 Hc Hn Hms Hsum Hp Hfit Hrx HN. unfold se_fetch_replies in *.
  destruct (se_stage_notice P N _ d (rbuf d) n d tr1 d1 Hd1 (conj H0 eq_refl) ltac:(lia) Hv Hn) as (xa & ta & A1 & A2 & A3 & A4).
  destruct (se_rest_at P N d _ _ xa ta d1 A4 A3) as (R1 & R2 & R3).
  destruct (se_chunks P N d ms d1 tr2 d2 Hc n (rbuf d) R3 Hn Hp Hms Hsum Hok Hfit Hrx HN) as (ks & r' & K1 & K2 & K3 & K4 & K5 & K6 & K7 & [K8 K9]).
  assert (Er : rbuf d2 = r') by apply K8.
  exists ks. rewrite Er, sent_app, payloads_app, A1, A2, R1, R2. cbn [app]. splits; auto.
Qed.
