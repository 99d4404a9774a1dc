(** The SIM7x00 driver: a request for the identification and its answer. *)
From Coq Require Import String Ascii ZArith List Bool Arith Lia ZifyBool ZifyNat.
From Verif Require Import Base QueueSpec LineSpec SerialSpec Ring RingProofs LineRing LineRingProofs Serial SerialProofs
  SerStep TaskMacros CStr CStrProofs Dev DevProofs SimDev SimProofs SimSpec SimParse SimLog Sym DrvStep DrvCommon DrvRun DrvHist DrvActs DrvHand SimHand DrvFetch DrvSession SimQuery
  Sim7x00 Sim7Spec Sim7Proofs Sim7Ctl Sim7CtlIn Sim7Run Sim7Hist Sim7Thms Sim7More Sim7Line Sim7Req Sim7Rest Sim7Stuck Sim7Hand Sim7Send Sim7Fetch Sim7Session.
Import ListNotations.
Local Open Scope nat_scope.
Ltac Zify.zify_post_hook ::= Z.div_mod_to_equations.
Local Notation dv := (dev s7send s7reply simx).
Local Notation ent := (@entry simop).
Local Notation olab7 := (olab r7_ok s7_says s7_tail s7_insend true).

(** Lines without meaning while the answer is awaited. *)
Definition s7_murmur (L : bytes) : Prop := s7_noise L /\ id_reply L = None.

(** A run() that reads no line; [s7_hear_none] with a request pending. *)
Lemma s7_awake_none : forall P N d e d', s7_step P d e d' -> roomy N d e -> hears None e -> s7_awake d ->
  exists dm d1 a b, s7_inv dm /\ s7_same d dm /\ keepw d dm /\ txav (io dm) + N <= txsz (io dm) /\
    e_acts e = [a; b] /\ act_put a = [] /\ olab7 dm d1 b /\ s7_output dm = Ok d1 /\ d' = set_io (io d') d1 /\ (fDisc (fl d) = false -> fl dm = fl d).
Proof.
  intros P N d e d' Hs ((oo & Eo) & Ht) Hn (H1 & H2 & H3).
  destruct (s7_parts P d e d' oo Hs Eo H1 H3 H2) as (d1 & Hd & a & d2 & r & Hi & [HI Hx] & Hr).
  assert (Hk : keepw (during (e_sch e) d) d2) by exact (ilab_keepw _ _ _ (s7_shape P) _ _ _ _ Hi).
  assert (Htx : txav (io d2) <= txav (io d)) by exact (ilab_tx (s7_shape P) _ _ _ _ Hi).
  destruct (ilab_io (s7_shape P) _ _ _ _ Hi) as (ev & Hst & _).
  assert (Hna : forall tk L, a <> aLine tk L) by (intros tk L ->; apply (Hn tk L); destruct Hr as [[-> _]|(b & -> & _)]; left; reflexivity).
  destruct Hr as [(_ & _ & ->)|(b & Ea & Hol & Hox)]; [exfalso; inversion Hi; subst; try discriminate; eapply Hna; reflexivity|].
  destruct Hox as (I2 & _ & Eq). exists d2, d1, a, b.
  assert (Hsame : s7_same (during (e_sch e) d) d2) by (destruct a; try exact Hx; exfalso; eapply Hna; reflexivity).
  splits; auto.
  - rewrite (sstep_txsz _ _ _ Hst). change (txsz (io (during (e_sch e) d))) with (txsz (io d)). lia.
  - inversion Hi; reflexivity.
  - intro Hf. inversion Hi; subst; auto; [match goal with H : fDisc (fl (during _ _)) = true |- _ => change (fDisc (fl d) = true) in H; congruence end|exfalso; eapply Hna; reflexivity].
Qed.

(** A line while the identification is awaited. *)
Lemma s7_line_id : forall P d ret d' L, s7_handles P d ret d' L -> rst d = R7RequestID -> wait d = Some (bs "OK") ->
  prefixb (bs "ERROR") L = false -> prefixb (bs "OK") L = false -> prefixb (bs "+CIPRXGET: 1,0") L = false -> prefixb (bs "+IPCLOSE: 0,") L = false ->
  ret = false /\ exists r y, length (L ++ NUL :: r) = 61 /\
    ((exists s, id_ok L (idbuf (ext d)) s /\
       d' = set_rst R7Ok (set_x_idbuf (id_kept s r (idbuf (ext d))) (line_at L r y d))) \/
     ((forall s, ~ id_ok L (idbuf (ext d)) s) /\ d' = line_at L r y d)).
Proof.
  intros P d ret d' L (r & y & Hlen & _ & HI & E) Hr Hw F1 F2 F3 F4.
  set (x := line_at L r y d) in *. assert (HL : lbuf x = L ++ NUL :: r) by reflexivity.
  pose proof HI as (_ & _ & Hid & _). unfold s7_parse, s7_standard_reply in E. change (wait x) with (wait d) in E. rewrite Hw in E.
  rewrite (lmatch_line L r x HL Hlen) in E by first [reflexivity | cbn; lia]. cbn [bind] in E. rewrite F2 in E.
  rewrite (lstarts_line L r x HL Hlen) in E by (reflexivity || (cbn; lia)). cbn [bind] in E. rewrite F1 in E. cbn [bind] in E.
  assert (Hc : forall d2 : dv, lbuf d2 = lbuf x ->
    (if s7_rank S7Connected <=? s7_rank (sst d2) then let* z := sim_check_connection (bs "+IPCLOSE: 0,") d2 in Ok (false, z) else Ok (false, d2))%res = Ok (false, d2)).
  { intros d2 Hd2. destruct (_ <=? _); [|reflexivity]. unfold sim_check_connection.
    rewrite !(lstarts_line L r d2 ltac:(congruence) Hlen) by (reflexivity || (cbn; lia)). cbn [bind]. rewrite F3. cbn [bind]. rewrite F4. reflexivity. }
  unfold s7_special_reply in E. change (rst x) with (rst d) in E. rewrite Hr in E.
  destruct (id_line L r x HL Hlen Hid) as [(s & I1 & I2 & I3)|[I1 I2]].
  - rewrite I3 in E. cbn [bind] in E. rewrite Hc in E by reflexivity. apply ok_inj in E. apply pair_eq in E as [<- <-].
    split; [reflexivity|]. exists r, y. split; [exact Hlen|]. left. exists s. split; [split; assumption|reflexivity].
  - rewrite I2 in E. cbn [bind] in E. rewrite Hc in E by reflexivity. apply ok_inj in E. apply pair_eq in E as [<- <-].
    split; [reflexivity|]. exists r, y. split; [exact Hlen|]. right. split; [|reflexivity]. intros s [K1 K2]. destruct (I1 s K1) as [K3 K4]. exact (K4 (K2 K3)).
Qed.

(** Where a query stands: what is awaited, and the buffer of the identification. *)
Definition s7_stage (d0 : dv) (w : option bytes) (r : s7reply) (b : bytes) (x : dv) : Prop :=
  s7_awake x /\ rssi x <> INT16_MAX /\ wait x = w /\ rst x = r /\ idbuf (ext x) = b /\ sst x = sst d0 /\ fIp (fl x) = fIp (fl d0) /\
  s7_params x = s7_params d0 /\ s7_address x = s7_address d0.
Lemma s7_stage_io : forall d0 w r b y x, s7_stage d0 w r b x -> s7_stage d0 w r b (set_io y x).
Proof. intros d0 w r b y x H. exact H. Qed.
Lemma s7_stage_same : forall d0 w r b x x', s7_stage d0 w r b x -> s7_same x x' -> keepw x x' -> s7_stage d0 w r b x'.
Proof.
  intros d0 w r b x x' ((A1 & A2 & A3) & B1 & B2 & B3 & B4 & B5 & B6 & B7 & B8) (S1 & S2 & S3 & S4 & S5 & S6 & S7 & S8 & S9 & S10 & S11 & S12) ((K1 & K2 & K3 & K4 & K5 & K6) & K7).
  unfold s7_stage, s7_awake, s7_params, s7_address in *. rewrite S6, K1, K4, K5, K6. splits; auto; congruence.
Qed.

Lemma s7_stage_none : forall P N d0 w r b x e x', s7_step P x e x' -> roomy N x e -> hears None e -> w <> None \/ r <> R7Ok -> s7_stage d0 w r b x ->
  s7_stage d0 w r b x' /\ put (e_ev e) = [].
Proof.
  intros P N d0 w r b x e x' Hs Hr Hh Hp HK.
  destruct (s7_awake_none P N x e x' Hs Hr Hh (proj1 HK)) as (dm & d1 & a & c & HI & Hsame & Hk & Ht & Ea & Hpa & Hol & Eo & Ed & _).
  pose proof (s7_stage_same d0 w r b x dm HK Hsame Hk) as HK2.
  assert (Hpm : s7_pending dm) by (unfold s7_pending; destruct HK2 as (_ & _ & -> & -> & _); exact Hp).
  pose proof (s7_pending_output dm d1 Eo Hpm) as ->. rewrite Ed. split; [exact HK2|]. exact (s7_put_nil P x e x' a c dm Hs (proj1 Hr) Ea Hpa Hol).
Qed.

(** The line read in a run() is handled before anything is sent. *)
Lemma s7_reads_line : forall P N d e d' q, s7_step P d e d' -> roomy N d e -> hears (Some q) e -> s7_awake d ->
  exists L r d2 z, q L /\ s7_handles P (set_io z d) r d2 L /\ keepw d d2 /\
    (r = true \/ exists d1 a b, s7_inv d2 /\ txav (io d2) + N <= txsz (io d2) /\ e_acts e = [a; b] /\ act_put a = [] /\ olab7 d2 d1 b /\ s7_output d2 = Ok d1 /\ d' = set_io (io d') d1).
Proof.
  intros P N d e d' q Hs ((oo & Eo) & Ht) (tk & L & Hin & HL) (H1 & H2 & H3).
  destruct (s7_parts P d e d' oo Hs Eo H1 H3 H2) as (d1 & Hd & a & d2 & r & Hi & [HI Hx] & Hr).
  assert (Hk : keepw (during (e_sch e) d) d2) by exact (ilab_keepw _ _ _ (s7_shape P) _ _ _ _ Hi).
  assert (Htx : txav (io d2) <= txav (io d)) by exact (ilab_tx (s7_shape P) _ _ _ _ Hi).
  destruct (ilab_io (s7_shape P) _ _ _ _ Hi) as (ev & Hst & _).
  assert (Ha : a = aLine tk L).
  { destruct Hr as [(Ea & _)|(b & Ea & Hol & _)]; rewrite Ea in Hin; cbn [In] in Hin; destruct Hin as [<-|Hin]; auto; [destruct Hin|].
    destruct Hin as [Hin|[]]. subst b. inversion Hol. }
  subst a. destruct Hx as [_ Hx]. exists L, r, d2, (io (during (e_sch e) d)). splits; auto.
  destruct Hr as [(_ & _ & ->)|(b & Ea & Hol & (I2 & _ & Eq))]; [left; reflexivity|]. right. exists d1, (aLine tk L), b. splits; auto.
  rewrite (sstep_txsz _ _ _ Hst). change (txsz (io (during (e_sch e) d))) with (txsz (io d)). lia.
Qed.

Lemma s7_murmur_id : forall L, s7_murmur L -> prefixb (bs "ERROR") L = false /\ prefixb (bs "OK") L = false /\ prefixb (bs "+CIPRXGET: 1,0") L = false /\ prefixb (bs "+IPCLOSE: 0,") L = false.
Proof.
  intros L [Hn Hi]. apply s7_noise_inv in Hn as (L1 & _ & _ & _ & _ & L6 & L7). splits; auto. exact (proj1 (proj2 (no_id_reply L Hi))).
Qed.

(** While the identification is awaited. *)
Lemma s7_stage_murmur : forall P N d0 b x e x', s7_step P x e x' -> roomy N x e -> hears (Some s7_murmur) e -> s7_stage d0 (Some (bs "OK")) R7RequestID b x ->
  s7_stage d0 (Some (bs "OK")) R7RequestID b x' /\ put (e_ev e) = [].
Proof.
  intros P N d0 b x e x' Hs Hr Hh HK. pose proof HK as (HA & B1 & B2 & B3 & B4 & B5 & B6 & B7 & B8).
  destruct (s7_reads_line P N x e x' s7_murmur Hs Hr Hh HA) as (L & r & d2 & z & HL & Hx & Hk & Hrest).
  destruct (s7_murmur_id L HL) as (F1 & F2 & F3 & F4).
  destruct (s7_line_id P _ r d2 L Hx B3 B2 F1 F2 F3 F4) as (-> & r0 & y & Hlen & [(s & [I1 _] & _)|[_ ->]]); [destruct HL as [_ HL]; congruence|].
  destruct Hrest as [Z|(d1 & a & c & HI & Ht & Ea & Hpa & Hol & Eo & Ed)]; [discriminate Z|].
  assert (HK2 : s7_stage d0 (Some (bs "OK")) R7RequestID b (line_at L r0 y (set_io z x))) by exact HK.
  assert (Hpm : s7_pending (line_at L r0 y (set_io z x))) by (left; change (wait x <> None); congruence).
  pose proof (s7_pending_output _ d1 Eo Hpm) as ->. rewrite Ed. split; [exact HK2|]. exact (s7_put_nil P x e x' a c _ Hs (proj1 Hr) Ea Hpa Hol).
Qed.

Lemma s7_stage_answer : forall P N d0 b t s x e x', s7_step P x e x' -> roomy N x e -> hears (Some (id_answer t s)) e -> s7_stage d0 (Some (bs "OK")) R7RequestID b x ->
  nth_error b 2 = Some (id_code t) -> length b = 24 ->
  exists r, s7_stage d0 (Some (bs "OK")) R7Ok (id_kept s r b) x' /\ put (e_ev e) = [].
Proof.
  intros P N d0 b t s x e x' Hs Hr Hh HK Hb Hl. pose proof HK as (HA & B1 & B2 & B3 & B4 & B5 & B6 & B7 & B8).
  destruct (s7_reads_line P N x e x' _ Hs Hr Hh HA) as (L & r & d2 & z & HL & Hx & Hk & Hrest).
  destruct HL as (L1 & L2 & L3 & L4 & L5 & L6). pose proof (id_reply_calm L s L1) as (L7 & L8).
  destruct (s7_line_id P _ r d2 L Hx B3 B2 L6 L5 (no_prefix (bs "+C") (bs "IPRXGET: 1,0") L L7) (no_prefix (bs "+IP") (bs "CLOSE: 0,") L L8)) as (-> & r0 & y & Hlen & [(s' & [I1 _] & ->)|[I1 _]]).
  - assert (s' = s) as -> by (change (id_reply L = Some s') in I1; congruence).
    destruct Hrest as [Z|(d1 & a & c & HI & Ht & Ea & Hpa & Hol & Eo & Ed)]; [discriminate Z|].
    assert (Hpm : s7_pending (set_rst R7Ok (set_x_idbuf (id_kept s r0 (idbuf (ext (set_io z x)))) (line_at L r0 y (set_io z x))))) by (left; change (wait x <> None); congruence).
    pose proof (s7_pending_output _ d1 Eo Hpm) as ->. exists r0. rewrite Ed. split; [|exact (s7_put_nil P x e x' a c _ Hs (proj1 Hr) Ea Hpa Hol)].
    unfold s7_stage. splits; auto. cbn [ext set_io set_rst set_x_idbuf set_ext idbuf set_idbuf line_at]. rewrite <- B4. reflexivity.
  - exfalso. apply (I1 s). split; [exact L1|]. intro K. apply L2. change (nth_error (idbuf (ext x)) 2 = Some (id_code idIccid)) in K. rewrite B4, Hb in K. apply some_eq in K. destruct t; discriminate K || reflexivity.
Qed.

(** Afterwards, until "OK" is read. *)
Lemma s7_stage_noise : forall P N d0 b x e x', s7_step P x e x' -> roomy N x e -> hears (Some s7_murmur) e -> s7_stage d0 (Some (bs "OK")) R7Ok b x ->
  s7_stage d0 (Some (bs "OK")) R7Ok b x' /\ put (e_ev e) = [].
Proof.
  intros P N d0 b x e x' Hs Hr Hh HK. pose proof HK as (HA & B1 & B2 & B3 & B4 & B5 & B6 & B7 & B8).
  destruct (s7_awake_line P N x e x' s7_murmur Hs Hr Hh HA) as (dm & d1 & a & c & L & HI & HL & Hx & Hk & Ht & Ea & Hpa & Hol & Eo & Ed); [left; exact B3|intros L HL; left; apply HL|].
  destruct (s7_murmur_id L HL) as (F1 & F2 & F3 & F4). destruct Hx as (S1 & S2 & S3 & S4 & S5 & S6 & S7 & S8). rewrite B2 in S4. cbn [s7_wait_after] in S4. rewrite F2 in S4. rewrite B3 in S5, S8. cbn [s7_rst_after andb] in S5, S8.
  pose proof Hk as ((K1 & K2 & K3 & K4 & K5 & K6) & K7).
  assert (Hpm : s7_pending dm) by (left; congruence). pose proof (s7_pending_output _ d1 Eo Hpm) as ->. rewrite Ed.
  split; [|exact (s7_put_nil P x e x' a c _ Hs (proj1 Hr) Ea Hpa Hol)].
  apply s7_stage_io. unfold s7_stage, s7_awake, s7_params in *. destruct HA as (A1 & A2 & A3). rewrite S2, S3, S6, K1, K4, K5, K6. splits; auto; congruence.
Qed.

(** With nothing to do nothing is done. *)
Lemma s7_output_idle : forall (x x1 : dv), s7_inv x -> s7_output x = Ok x1 -> wait x = None -> rst x = R7Ok -> rssi x <> INT16_MAX -> no_request (idbuf (ext x)) ->
  (sst x = S7Connected /\ avail (wbuf x) = 0 /\ fData (fl x) = false /\ fDisc (fl x) = false) \/ (sst x = S7NotConnected /\ fConnect (fl x) = false) -> txav (io x) + 20 <= txsz (io x) ->
  quiet (io x) (io x1) /\ (sst x = S7Connected -> cst x1 = csConnected) /\ exists c t, x1 = set_io (io x1) (set_tsk t (set_cst c x)).
Proof.
  intros x x1 HI Hx K5 K6 K11 K12 Hm Ht. pose proof HI as ((Hw & _) & _ & Hid & _).
  unfold s7_output in Hx. rewrite K5, K6 in Hx. cbn [r7_ok negb] in Hx. unfold d_space in Hx.
  destruct (s_space_q (io x) Hw) as (y & E1 & Q). rewrite E1 in Hx. cbn [bind] in Hx.
  destruct (Nat.ltb_spec (txsz y - txav y) 20) as [Hlt|Hge].
  - exfalso. apply quiet_ioeff in Q. pose proof (ioeff_av _ _ _ _ Q) as [_ A]. pose proof (ioeff_txsz _ _ _ _ Q). cbn [length] in A. lia.
  - change (rssi (set_io y x)) with (rssi x) in Hx.
    destruct (Z.eqb_spec (rssi x) INT16_MAX); [contradiction|]. cbn [andb] in Hx. rewrite (no_id_request _ _ _ (set_io y x) K12 Hid) in Hx. cbn [bind] in Hx.
    unfold s7_machine in Hx. change (sst (set_io y x)) with (sst x) in Hx. destruct Hm as [(M1 & M2 & M3 & M4)|(M1 & M2)]; rewrite M1 in Hx.
    + unfold s7_connected in Hx. change (wbuf (set_io y x)) with (wbuf x) in Hx. rewrite M2 in Hx. change (fl (set_io y x)) with (fl x) in Hx. rewrite M3 in Hx.
      unfold at_handle_disconnect in Hx. change (fl (set_cst csConnected (set_io y x))) with (fl x) in Hx. rewrite M4 in Hx. cbn [Nat.ltb Nat.leb snd] in Hx. apply ok_inj in Hx. subst x1.
      splits; auto. exists csConnected, (tsk x). destruct x; reflexivity.
    + unfold at_handle_connect in Hx. cbn [fl set_io set_cst dev_set_delay set_tsk] in Hx. rewrite M2 in Hx. apply ok_inj in Hx. subst x1.
      split; [exact Q|]. split; [intro Z; congruence|]. eexists csNotConnected, _. destruct x; reflexivity.
Qed.

Lemma s7_stage_done : forall P N d0 b x e x', s7_step P x e x' -> roomy N x e -> hears (reply (bs "OK")) e -> s7_stage d0 (Some (bs "OK")) R7Ok b x ->
  no_request b -> 20 <= N -> avail (wbuf x) = 0 -> fData (fl x) = false -> fDisc (fl x) = false -> fConnect (fl x) = false -> sst d0 = S7Connected \/ sst d0 = S7NotConnected ->
  s7_stage d0 None R7Ok b x' /\ put (e_ev e) = [] /\ (sst d0 = S7Connected -> cst x' = csConnected).
Proof.
  intros P N d0 b x e x' Hs Hr Hh HK Hb HN F1 F2 F3 F4 Hst. pose proof HK as (HA & B1 & B2 & B3 & B4 & B5 & B6 & B7 & B8).
  destruct (s7_awake_line P N x e x' _ Hs Hr Hh HA) as (dm & d1 & a & c & L & HI & HL & Hx & Hk & Ht & Ea & Hpa & Hol & Eo & Ed); [left; exact B3|intros L HL; left; exact (s7_ok_noise L HL)|].
  destruct Hx as (S1 & S2 & S3 & S4 & S5 & S6 & S7 & S8). rewrite B2 in S4. cbn [s7_wait_after] in S4. rewrite HL in S4. rewrite B3 in S5, S8. cbn [s7_rst_after andb] in S5, S8.
  pose proof Hk as ((K1 & K2 & K3 & K4 & K5 & K6) & K7).
  destruct (s7_output_idle dm d1 HI Eo S4 S5) as (Q & Hc & cc & tt & E1); try congruence; [rewrite S1, S2, K3, B5; destruct Hst as [->| ->]; [left|right]; auto|lia|].
  assert (Hp : put (e_ev e) = []).
  { destruct Hr as ((oo & Eop) & _). destruct Hs as (_ & _ & _ & _ & _ & _ & Hio & _). unfold call_io in Hio. rewrite Eop in Hio. destruct Hio as [_ ->].
    rewrite Ea. unfold acts_put. cbn [map concat]. rewrite Hpa, app_nil_r. cbn [app].
    refine (olab_put _ _ _ _ _ _ _ _ dm d1 c [] [] _ Hol (quiet_ioeff _ _ Q)). intros v Hv. destruct (olab_io (s7_shape P) _ _ _ Hv) as (ev & T1 & _ & T2 & _). eauto. }
  split; [|split; [exact Hp|intro Z; rewrite Ed; apply Hc; congruence]]. rewrite Ed, E1.
  cut (s7_stage d0 None R7Ok b dm); [intro C; exact C|]. unfold s7_stage, s7_awake, s7_params in *. destruct HA as (A1 & A2 & A3). rewrite S2, S3, S6, K1, K4, K5, K6. splits; auto; congruence.
Qed.

(** The run() that sends the request. *)
Lemma s7_asks : forall P N t d e d' c, s7_step P d e d' -> roomy N d e -> hears None e -> 20 <= N -> s7_stage d None R7Ok (idbuf (ext d)) d -> fLine (fl d) = true -> fDisc (fl d) = false ->
  nth_error (idbuf (ext d)) 0 = Some NUL -> nth_error (idbuf (ext d)) 1 = Some (id_code t) -> id_command s7_iccid_command t = Some c ->
  put (e_ev e) = c ++ [CR; LF] /\ s7_stage d (Some (bs "OK")) R7RequestID (list_set (idbuf (ext d)) 1 (id_code idNone)) d' /\ length (idbuf (ext d)) = 24.
Proof.
  intros P N t d e d' c Hs Hr Hh HN HK Hl Hdi H0 H1 Hc.
  destruct (s7_awake_none P N d e d' Hs Hr Hh (proj1 HK)) as (dm & d1 & a & b & HI & Hsame & Hk & Ht & Ea & Hpa & Hol & Eo & Ed & Ef).
  pose proof (s7_stage_same d None R7Ok _ d dm HK Hsame Hk) as HK2. pose proof HK2 as (HA & B1 & B2 & B3 & B4 & B5 & B6 & B7 & B8).
  pose proof HI as ((Hw & _) & _ & Hid & _). assert (Hlm : fLine (fl dm) = true) by (rewrite Ef; assumption).
  unfold s7_output in Eo. rewrite B2, B3 in Eo. cbn [r7_ok negb] in Eo. unfold d_space in Eo.
  destruct (s_space_q (io dm) Hw) as (y & E1 & Q). rewrite E1 in Eo. cbn [bind] in Eo.
  destruct (Nat.ltb_spec (txsz y - txav y) 20) as [Hlt|Hge].
  { exfalso. apply quiet_ioeff in Q. pose proof (ioeff_av _ _ _ _ Q) as [_ A]. pose proof (ioeff_txsz _ _ _ _ Q). cbn [length] in A. lia. }
  change (rssi (set_io y dm)) with (rssi dm) in Eo. destruct (Z.eqb_spec (rssi dm) INT16_MAX); [contradiction|]. cbn [andb] in Eo.
  assert (HIy : swf (set_io y dm)) by (apply (dok_quiet _ _ _ dm y); [apply HI|exact Q]).
  destruct (id_sent _ _ s7_iccid_command (set_io y dm) t c HIy) as (z & W & Ez); try (cbn [ext fl set_io]; congruence); [destruct t; inversion Hc; reflexivity|]. rewrite Ez in Eo. cbn [bind] in Eo. apply ok_inj in Eo. subst d1.
  cbn [io set_io] in W. destruct (wroteb_quiet _ _ _ _ Q W) as (q & I1 & _ & I2). split; [|split; [|congruence]].
  - assert (Hp : put (e_ev e) = q).
    { destruct Hr as ((oo & Eop) & _). destruct Hs as (_ & _ & _ & _ & _ & _ & Hio & _). unfold call_io in Hio. rewrite Eop in Hio. destruct Hio as [_ ->].
      rewrite Ea. unfold acts_put. cbn [map concat]. rewrite Hpa, app_nil_r. cbn [app].
      refine (olab_put _ _ _ _ _ _ _ _ dm _ b [] q _ Hol I1). intros v Hv. destruct (olab_io (s7_shape P) _ _ _ Hv) as (ev & T1 & _ & T2 & _). eauto. }
    rewrite Hp. apply I2. rewrite app_length. cbn [length]. assert (length c <= 9) by (destruct t; inversion Hc; subst c; cbn; lia). lia.
  - rewrite Ed. unfold s7_stage. cbn [ext set_io set_wait set_rst set_x_idbuf set_ext idbuf set_idbuf sst fl rssi wait rst]. rewrite B4. splits; auto.
Qed.
