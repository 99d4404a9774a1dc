(** The SIM800 driver: a request for the identification and its answer. *)
From Coq Require Import String Ascii ZArith List Bool Arith Lia ZifyBool ZifyNat.
From Verif Require Import Base QueueSpec LineSpec SerialSpec Ring RingProofs LineRing LineRingProofs Serial SerialProofs
  SerStep TaskMacros CStr CStrProofs Dev DevProofs SimDev SimProofs SimSpec SimParse SimLog Sym DrvStep DrvCommon DrvRun DrvHist DrvActs DrvHand SimHand DrvFetch DrvSession SimQuery
  Sim800 Sim8Spec Sim8Proofs Sim8Ctl Sim8CtlIn Sim8Run Sim8Hist Sim8Thms Sim8More Sim8Line Sim8Req Sim8Rest Sim8Stuck Sim8Hand Sim8Send Sim8Fetch Sim8Session.
Import ListNotations.
Local Open Scope nat_scope.
Ltac Zify.zify_post_hook ::= Z.div_mod_to_equations.
Local Notation dv := (dev s8send s8reply simx).
Local Notation ent := (@entry simop).
Local Notation olab8 := (olab r8_ok s8_says s8_tail s8_insend true).

(** Lines without meaning while the answer is awaited. *)
Definition s8_murmur (L : bytes) : Prop := s8_noise L /\ id_reply L = None.
(** An answer; it is not one of the reports on the connection. *)
Definition s8_id_answer (t : idtype) (s L : bytes) : Prop := id_answer t s L /\ prefixb (bs "0, C") L = false.

(** A run() that reads no line; [s8_hear_none] with a request pending. *)
Lemma s8_awake_none : forall P N d e d', s8_step P d e d' -> roomy N d e -> hears None e -> s8_awake d ->
  exists dm d1 a b, s8_inv dm /\ s8_same d dm /\ keepw d dm /\ txav (io dm) + N <= txsz (io dm) /\
    e_acts e = [a; b] /\ act_put a = [] /\ olab8 dm d1 b /\ s8_output dm = Ok d1 /\ d' = set_io (io d') d1 /\ (fDisc (fl d) = false -> fl dm = fl d).
Proof.
  intros P N d e d' Hs ((oo & Eo) & Ht) Hn (H1 & H2 & H3).
  destruct (s8_parts P d e d' oo Hs Eo) as (d1 & Hd & [(_ & [E|E] & _)|(_ & _ & l & dp & Hp & Hr)]); [congruence|congruence|].
  destruct Hp as [(F & -> & ->)|(F & _)]; [|change (fReset (fl d) = true) in F; congruence].
  destruct Hr as (a & d2 & r & Hi & [HI Hx] & Hr).
  assert (Hk : keepw (during (e_sch e) d) d2) by exact (ilab_keepw _ _ _ (s8_shape P) _ _ _ _ Hi).
  assert (Htx : txav (io d2) <= txav (io d)) by exact (ilab_tx (s8_shape P) _ _ _ _ Hi).
  destruct (ilab_io (s8_shape P) _ _ _ _ Hi) as (ev & Hst & _).
  assert (Hna : forall tk L, a <> aLine tk L) by (intros tk L ->; apply (Hn tk L); destruct Hr as [[-> _]|(b & -> & _)]; left; reflexivity).
  destruct Hr as [(_ & _ & ->)|(b & Ea & Hol & Hox)]; [exfalso; inversion Hi; subst; try discriminate; eapply Hna; reflexivity|].
  destruct Hox as (I2 & _ & Eq). exists d2, d1, a, b.
  assert (Hsame : s8_same (during (e_sch e) d) d2) by (destruct a; try exact Hx; exfalso; eapply Hna; reflexivity).
  splits; auto.
  - rewrite (sstep_txsz _ _ _ Hst). change (txsz (io (during (e_sch e) d))) with (txsz (io d)). lia.
  - inversion Hi; reflexivity.
  - intro Hf. inversion Hi; subst; auto; [match goal with H : fDisc (fl (during _ _)) = true |- _ => change (fDisc (fl d) = true) in H; congruence end|exfalso; eapply Hna; reflexivity].
Qed.

(** A line while the identification is awaited. *)
Lemma s8_line_id : forall P d ret d' L, s8_handles P d ret d' L -> rst d = R8RequestID -> wait d = Some (bs "OK") ->
  s8_refused L = false -> prefixb (bs "OK") L = false -> prefixb (bs "+CIPRXGET: 1,0") L = false -> prefixb (bs "0, CLOSED") L = false ->
  ret = false /\ exists r y, length (L ++ NUL :: r) = 61 /\
    ((exists s, id_ok L (idbuf (ext d)) s /\
       d' = set_rst R8Ok (set_x_idbuf (id_kept s r (idbuf (ext d))) (line_at L r y d))) \/
     ((forall s, ~ id_ok L (idbuf (ext d)) s) /\ d' = line_at L r y d)).
Proof.
  intros P d ret d' L (r & y & Hlen & _ & HI & E) Hr Hw F1 F2 F3 F4.
  set (x := line_at L r y d) in *. assert (HL : lbuf x = L ++ NUL :: r) by reflexivity.
  pose proof HI as (_ & _ & Hid & _). unfold s8_parse in E.
  assert (He0 : s8_is_error x = Ok false).
  { unfold s8_is_error. unfold s8_refused in F1. apply orb_false_iff in F1 as [F1 F1c]. apply orb_false_iff in F1 as [F1a F1b].
    rewrite !(lstarts_line L r x HL Hlen) by (reflexivity || (cbn; lia)). cbn [bind]. rewrite ?F1a, ?F1b, ?F1c. reflexivity. }
  rewrite He0 in E. cbn [bind] in E. unfold s8_standard_reply in E. change (wait x) with (wait d) in E. rewrite Hw in E.
  rewrite (lmatch_line L r x HL Hlen) in E by first [reflexivity | cbn; lia]. cbn [bind] in E. rewrite F2 in E.
  assert (Hc : forall d2 : dv, lbuf d2 = lbuf x ->
    (if s8_rank S8Connected <=? s8_rank (sst d2) then let* z := sim_check_connection (bs "0, CLOSED") d2 in Ok (false, z) else Ok (false, d2))%res = Ok (false, d2)).
  { intros d2 Hd2. destruct (_ <=? _); [|reflexivity]. unfold sim_check_connection.
    rewrite !(lstarts_line L r d2 ltac:(congruence) Hlen) by (reflexivity || (cbn; lia)). cbn [bind]. rewrite F3. cbn [bind]. rewrite F4. reflexivity. }
  unfold s8_special_reply in E. change (rst x) with (rst d) in E. rewrite Hr in E.
  destruct (id_line L r x HL Hlen Hid) as [(s & I1 & I2 & I3)|[I1 I2]].
  - rewrite I3 in E. cbn [bind] in E. rewrite Hc in E by reflexivity. apply ok_inj in E. apply pair_eq in E as [<- <-].
    split; [reflexivity|]. exists r, y. split; [exact Hlen|]. left. exists s. split; [split; assumption|reflexivity].
  - rewrite I2 in E. cbn [bind] in E. rewrite Hc in E by reflexivity. apply ok_inj in E. apply pair_eq in E as [<- <-].
    split; [reflexivity|]. exists r, y. split; [exact Hlen|]. right. split; [|reflexivity]. intros s [K1 K2]. destruct (I1 s K1) as [K3 K4]. exact (K4 (K2 K3)).
Qed.

(** Where a query stands: what is awaited, and the buffer of the identification. *)
Definition s8_stage (d0 : dv) (w : option bytes) (r : s8reply) (b : bytes) (x : dv) : Prop :=
  s8_awake x /\ rssi x <> INT16_MAX /\ wait x = w /\ rst x = r /\ idbuf (ext x) = b /\ sst x = sst d0 /\ fIp (fl x) = fIp (fl d0) /\
  s8_params x = s8_params d0 /\ s8_address x = s8_address d0.
Lemma s8_stage_io : forall d0 w r b y x, s8_stage d0 w r b x -> s8_stage d0 w r b (set_io y x).
Proof. intros d0 w r b y x H. exact H. Qed.
Lemma s8_stage_same : forall d0 w r b x x', s8_stage d0 w r b x -> s8_same x x' -> keepw x x' -> s8_stage d0 w r b x'.
Proof.
  intros d0 w r b x x' ((A1 & A2 & A3) & B1 & B2 & B3 & B4 & B5 & B6 & B7 & B8) (S1 & S2 & S3 & S4 & S5 & S6 & S7 & S8 & S9 & S10 & S11 & S12) ((K1 & K2 & K3 & K4 & K5 & K6) & K7).
  unfold s8_stage, s8_awake, s8_params, s8_address in *. rewrite S6, K1, K4, K5, K6. splits; auto; congruence.
Qed.

Lemma s8_stage_none : forall P N d0 w r b x e x', s8_step P x e x' -> roomy N x e -> hears None e -> w <> None \/ r <> R8Ok -> s8_stage d0 w r b x ->
  s8_stage d0 w r b x' /\ put (e_ev e) = [].
Proof.
  intros P N d0 w r b x e x' Hs Hr Hh Hp HK.
  destruct (s8_awake_none P N x e x' Hs Hr Hh (proj1 HK)) as (dm & d1 & a & c & HI & Hsame & Hk & Ht & Ea & Hpa & Hol & Eo & Ed & _).
  pose proof (s8_stage_same d0 w r b x dm HK Hsame Hk) as HK2.
  assert (Hpm : s8_pending dm) by (unfold s8_pending; destruct HK2 as (_ & _ & -> & -> & _); exact Hp).
  pose proof (s8_pending_output dm d1 Eo Hpm) as ->. rewrite Ed. split; [exact HK2|]. exact (s8_put_nil P x e x' a c dm Hs (proj1 Hr) Ea Hpa Hol).
Qed.

(** The line read in a run() is handled before anything is sent. *)
Lemma s8_reads_line : forall P N d e d' q, s8_step P d e d' -> roomy N d e -> hears (Some q) e -> s8_awake d ->
  exists L r d2 z, q L /\ s8_handles P (set_io z d) r d2 L /\ keepw d d2 /\
    (r = true \/ exists d1 a b, s8_inv d2 /\ txav (io d2) + N <= txsz (io d2) /\ e_acts e = [a; b] /\ act_put a = [] /\ olab8 d2 d1 b /\ s8_output d2 = Ok d1 /\ d' = set_io (io d') d1).
Proof.
  intros P N d e d' q Hs ((oo & Eo) & Ht) (tk & L & Hin & HL) (H1 & H2 & H3).
  destruct (s8_parts P d e d' oo Hs Eo) as (d1 & Hd & [(_ & [E|E] & _)|(_ & _ & l & dp & Hp & Hr)]); [congruence|congruence|].
  destruct Hp as [(F & -> & ->)|(F & _)]; [|change (fReset (fl d) = true) in F; congruence].
  destruct Hr as (a & d2 & r & Hi & [HI Hx] & Hr).
  assert (Hk : keepw (during (e_sch e) d) d2) by exact (ilab_keepw _ _ _ (s8_shape P) _ _ _ _ Hi).
  assert (Htx : txav (io d2) <= txav (io d)) by exact (ilab_tx (s8_shape P) _ _ _ _ Hi).
  destruct (ilab_io (s8_shape P) _ _ _ _ Hi) as (ev & Hst & _).
  assert (Ha : a = aLine tk L).
  { destruct Hr as [(Ea & _)|(b & Ea & Hol & _)]; rewrite Ea in Hin; cbn [In] in Hin; destruct Hin as [<-|Hin]; auto; [destruct Hin|].
    destruct Hin as [Hin|[]]. subst b. inversion Hol. }
  subst a. destruct Hx as [_ Hx]. exists L, r, d2, (io (during (e_sch e) d)). splits; auto.
  destruct Hr as [(_ & _ & ->)|(b & Ea & Hol & (I2 & _ & Eq))]; [left; reflexivity|]. right. exists d1, (aLine tk L), b. splits; auto.
  rewrite (sstep_txsz _ _ _ Hst). change (txsz (io (during (e_sch e) d))) with (txsz (io d)). lia.
Qed.

Lemma s8_murmur_id : forall L, s8_murmur L -> s8_refused L = false /\ prefixb (bs "OK") L = false /\ prefixb (bs "+CIPRXGET: 1,0") L = false /\ prefixb (bs "0, CLOSED") L = false.
Proof.
  intros L [Hn Hi]. apply s8_noise_inv in Hn as (L1 & L2 & L3 & _ & _ & L6 & L7 & _). unfold s8_refused. rewrite L1, L2, L3.
  pose proof (no_prefix (bs "0, CLOSE") (bs "D") L L7). splits; auto. exact (proj1 (proj2 (no_id_reply L Hi))).
Qed.
Lemma s8_answer_id : forall t s L, s8_id_answer t s L -> s8_refused L = false /\ prefixb (bs "OK") L = false /\ prefixb (bs "+CIPRXGET: 1,0") L = false /\ prefixb (bs "0, CLOSED") L = false.
Proof.
  intros t s L ((L1 & _ & _ & _ & L5 & L6) & L7). pose proof (id_reply_calm L s L1) as (L8 & _).
  assert (L9 : prefixb (bs "+P") L = false) by (apply not_true_is_false; intro K; apply prefixb_spec in K as [u ->]; discriminate L1).
  pose proof (no_prefix (bs "+P") (bs "DP: DEACT") L L9) as Y1. pose proof (no_prefix (bs "+C") (bs "ME ERROR") L L8) as Y2. pose proof (no_prefix (bs "+C") (bs "IPRXGET: 1,0") L L8) as Y3. pose proof (no_prefix (bs "0, C") (bs "LOSED") L L7) as Y4.
  unfold s8_refused. change (bs "+P" ++ bs "DP: DEACT") with (bs "+PDP: DEACT") in Y1. change (bs "+C" ++ bs "ME ERROR") with (bs "+CME ERROR") in Y2. rewrite Y1, Y2, L6. splits; auto.
Qed.

(** While the identification is awaited. *)
Lemma s8_stage_murmur : forall P N d0 b x e x', s8_step P x e x' -> roomy N x e -> hears (Some s8_murmur) e -> s8_stage d0 (Some (bs "OK")) R8RequestID b x ->
  s8_stage d0 (Some (bs "OK")) R8RequestID b x' /\ put (e_ev e) = [].
Proof.
  intros P N d0 b x e x' Hs Hr Hh HK. pose proof HK as (HA & B1 & B2 & B3 & B4 & B5 & B6 & B7 & B8).
  destruct (s8_reads_line P N x e x' s8_murmur Hs Hr Hh HA) as (L & r & d2 & z & HL & Hx & Hk & Hrest).
  destruct (s8_murmur_id L HL) as (F1 & F2 & F3 & F4).
  destruct (s8_line_id P _ r d2 L Hx B3 B2 F1 F2 F3 F4) as (-> & r0 & y & Hlen & [(s & [I1 _] & _)|[_ ->]]); [destruct HL as [_ HL]; congruence|].
  destruct Hrest as [Z|(d1 & a & c & HI & Ht & Ea & Hpa & Hol & Eo & Ed)]; [discriminate Z|].
  assert (HK2 : s8_stage d0 (Some (bs "OK")) R8RequestID b (line_at L r0 y (set_io z x))) by exact HK.
  assert (Hpm : s8_pending (line_at L r0 y (set_io z x))) by (left; change (wait x <> None); congruence).
  pose proof (s8_pending_output _ d1 Eo Hpm) as ->. rewrite Ed. split; [exact HK2|]. exact (s8_put_nil P x e x' a c _ Hs (proj1 Hr) Ea Hpa Hol).
Qed.

Lemma s8_stage_answer : forall P N d0 b t s x e x', s8_step P x e x' -> roomy N x e -> hears (Some (s8_id_answer t s)) e -> s8_stage d0 (Some (bs "OK")) R8RequestID b x ->
  nth_error b 2 = Some (id_code t) -> length b = 24 ->
  exists r, s8_stage d0 (Some (bs "OK")) R8Ok (id_kept s r b) x' /\ put (e_ev e) = [].
Proof.
  intros P N d0 b t s x e x' Hs Hr Hh HK Hb Hl. pose proof HK as (HA & B1 & B2 & B3 & B4 & B5 & B6 & B7 & B8).
  destruct (s8_reads_line P N x e x' _ Hs Hr Hh HA) as (L & r & d2 & z & HL & Hx & Hk & Hrest).
  destruct (s8_answer_id t s L HL) as (G1 & G2 & G3 & G4). destruct HL as ((L1 & L2 & L3 & L4 & L5 & L6) & _).
  destruct (s8_line_id P _ r d2 L Hx B3 B2 G1 G2 G3 G4) as (-> & r0 & y & Hlen & [(s' & [I1 _] & ->)|[I1 _]]).
  - assert (s' = s) as -> by (change (id_reply L = Some s') in I1; congruence).
    destruct Hrest as [Z|(d1 & a & c & HI & Ht & Ea & Hpa & Hol & Eo & Ed)]; [discriminate Z|].
    assert (Hpm : s8_pending (set_rst R8Ok (set_x_idbuf (id_kept s r0 (idbuf (ext (set_io z x)))) (line_at L r0 y (set_io z x))))) by (left; change (wait x <> None); congruence).
    pose proof (s8_pending_output _ d1 Eo Hpm) as ->. exists r0. rewrite Ed. split; [|exact (s8_put_nil P x e x' a c _ Hs (proj1 Hr) Ea Hpa Hol)].
    unfold s8_stage. splits; auto. cbn [ext set_io set_rst set_x_idbuf set_ext idbuf set_idbuf line_at]. rewrite <- B4. reflexivity.
  - exfalso. apply (I1 s). split; [exact L1|]. intro K. apply L2. change (nth_error (idbuf (ext x)) 2 = Some (id_code idIccid)) in K. rewrite B4, Hb in K. apply some_eq in K. destruct t; discriminate K || reflexivity.
Qed.

(** Afterwards, until "OK" is read. *)
Lemma s8_stage_noise : forall P N d0 b x e x', s8_step P x e x' -> roomy N x e -> hears (Some s8_murmur) e -> s8_stage d0 (Some (bs "OK")) R8Ok b x ->
  s8_stage d0 (Some (bs "OK")) R8Ok b x' /\ put (e_ev e) = [].
Proof.
  intros P N d0 b x e x' Hs Hr Hh HK. pose proof HK as (HA & B1 & B2 & B3 & B4 & B5 & B6 & B7 & B8).
  destruct (s8_awake_line P N x e x' s8_murmur Hs Hr Hh HA) as (dm & d1 & a & c & L & HI & HL & Hx & Hk & Ht & Ea & Hpa & Hol & Eo & Ed); [left; exact B3|intros L HL; left; apply HL|].
  destruct (s8_murmur_id L HL) as (F1 & F2 & F3 & F4). destruct Hx as (S1 & S2 & S3 & S4 & S5 & S6 & S7 & S8). rewrite B2 in S4. cbn [s8_wait_after] in S4. rewrite F2 in S4. rewrite B3 in S5, S8. cbn [s8_rst_after andb] in S5, S8.
  pose proof Hk as ((K1 & K2 & K3 & K4 & K5 & K6) & K7).
  assert (Hpm : s8_pending dm) by (left; congruence). pose proof (s8_pending_output _ d1 Eo Hpm) as ->. rewrite Ed.
  split; [|exact (s8_put_nil P x e x' a c _ Hs (proj1 Hr) Ea Hpa Hol)].
  apply s8_stage_io. unfold s8_stage, s8_awake, s8_params in *. destruct HA as (A1 & A2 & A3). rewrite S2, S3, S6, K1, K4, K5, K6. splits; auto; congruence.
Qed.

(** With nothing to do nothing is done. *)
Lemma s8_output_idle : forall (x x1 : dv), s8_inv x -> s8_output x = Ok x1 -> wait x = None -> rst x = R8Ok -> rssi x <> INT16_MAX -> no_request (idbuf (ext x)) ->
  (sst x = S8Connected /\ avail (wbuf x) = 0 /\ fData (fl x) = false /\ fDisc (fl x) = false /\ fIp (fl x) = true) \/ (sst x = S8NotConnected /\ fConnect (fl x) = false) -> txav (io x) + 20 <= txsz (io x) ->
  quiet (io x) (io x1) /\ (sst x = S8Connected -> cst x1 = csConnected) /\ exists c t, x1 = set_io (io x1) (set_tsk t (set_cst c x)).
Proof.
  intros x x1 HI Hx K5 K6 K11 K12 Hm Ht. pose proof HI as ((Hw & _) & _ & Hid & _).
  unfold s8_output in Hx. rewrite K5, K6 in Hx. cbn [r8_ok negb] in Hx. unfold d_space in Hx.
  destruct (s_space_q (io x) Hw) as (y & E1 & Q). rewrite E1 in Hx. cbn [bind] in Hx.
  destruct (Nat.ltb_spec (txsz y - txav y) 20) as [Hlt|Hge].
  - exfalso. apply quiet_ioeff in Q. pose proof (ioeff_av _ _ _ _ Q) as [_ A]. pose proof (ioeff_txsz _ _ _ _ Q). cbn [length] in A. lia.
  - change (rssi (set_io y x)) with (rssi x) in Hx.
    destruct (Z.eqb_spec (rssi x) INT16_MAX); [contradiction|]. cbn [andb] in Hx. rewrite (no_id_request _ _ _ (set_io y x) K12 Hid) in Hx. cbn [bind] in Hx.
    unfold s8_machine in Hx. change (sst (set_io y x)) with (sst x) in Hx. destruct Hm as [(M1 & M2 & M3 & M4 & M5)|(M1 & M2)]; rewrite M1 in Hx.
    + unfold s8_connected in Hx. change (wbuf (set_io y x)) with (wbuf x) in Hx. rewrite M2 in Hx. change (fl (set_io y x)) with (fl x) in Hx. rewrite M3 in Hx.
      change (fl (set_cst csConnected (set_io y x))) with (fl x) in Hx. cbn [Nat.ltb Nat.leb] in Hx. rewrite M5 in Hx.
      unfold at_handle_disconnect in Hx. change (fl (set_cst csConnected (set_io y x))) with (fl x) in Hx. rewrite M4 in Hx. cbn [snd] in Hx. apply ok_inj in Hx. subst x1.
      splits; auto. exists csConnected, (tsk x). destruct x; reflexivity.
    + unfold at_handle_connect in Hx. cbn [fl set_io set_cst dev_set_delay set_tsk] in Hx. rewrite M2 in Hx. apply ok_inj in Hx. subst x1.
      split; [exact Q|]. split; [intro Z; congruence|]. eexists csNotConnected, _. destruct x; reflexivity.
Qed.

Lemma s8_stage_done : forall P N d0 b x e x', s8_step P x e x' -> roomy N x e -> hears (reply (bs "OK")) e -> s8_stage d0 (Some (bs "OK")) R8Ok b x ->
  no_request b -> 20 <= N -> avail (wbuf x) = 0 -> fData (fl x) = false -> fDisc (fl x) = false -> fConnect (fl x) = false -> (sst d0 = S8Connected /\ fIp (fl d0) = true) \/ sst d0 = S8NotConnected ->
  s8_stage d0 None R8Ok b x' /\ put (e_ev e) = [] /\ (sst d0 = S8Connected -> cst x' = csConnected).
Proof.
  intros P N d0 b x e x' Hs Hr Hh HK Hb HN F1 F2 F3 F4 Hst. pose proof HK as (HA & B1 & B2 & B3 & B4 & B5 & B6 & B7 & B8).
  destruct (s8_awake_line P N x e x' _ Hs Hr Hh HA) as (dm & d1 & a & c & L & HI & HL & Hx & Hk & Ht & Ea & Hpa & Hol & Eo & Ed); [left; exact B3|intros L HL; left; exact (s8_ok_noise L HL)|].
  destruct Hx as (S1 & S2 & S3 & S4 & S5 & S6 & S7 & S8). rewrite B2 in S4. cbn [s8_wait_after] in S4. rewrite HL in S4. rewrite B3 in S5, S8. cbn [s8_rst_after andb] in S5, S8.
  pose proof Hk as ((K1 & K2 & K3 & K4 & K5 & K6) & K7).
  destruct (s8_output_idle dm d1 HI Eo S4 S5) as (Q & Hc & cc & tt & E1); try congruence; [rewrite S1, S2, K3, B5; destruct Hst as [[-> Hip]| ->]; [left; splits; congruence|right; auto]|lia|].
  assert (Hp : put (e_ev e) = []).
  { destruct Hr as ((oo & Eop) & _). destruct Hs as (_ & _ & _ & _ & _ & _ & Hio & _). unfold call_io in Hio. rewrite Eop in Hio. destruct Hio as [_ ->].
    rewrite Ea. unfold acts_put. cbn [map concat]. rewrite Hpa, app_nil_r. cbn [app].
    refine (olab_put _ _ _ _ _ _ _ _ dm d1 c [] [] _ Hol (quiet_ioeff _ _ Q)). intros v Hv. destruct (olab_io (s8_shape P) _ _ _ Hv) as (ev & T1 & _ & T2 & _). eauto. }
  split; [|split; [exact Hp|intro Z; rewrite Ed; apply Hc; congruence]]. rewrite Ed, E1.
  cut (s8_stage d0 None R8Ok b dm); [intro C; exact C|]. unfold s8_stage, s8_awake, s8_params in *. destruct HA as (A1 & A2 & A3). rewrite S2, S3, S6, K1, K4, K5, K6. splits; auto; congruence.
Qed.

(** The run() that sends the request. *)
Lemma s8_asks : forall P N t d e d' c, s8_step P d e d' -> roomy N d e -> hears None e -> 20 <= N -> s8_stage d None R8Ok (idbuf (ext d)) d -> fLine (fl d) = true -> fDisc (fl d) = false ->
  nth_error (idbuf (ext d)) 0 = Some NUL -> nth_error (idbuf (ext d)) 1 = Some (id_code t) -> id_command s8_iccid_command t = Some c ->
  put (e_ev e) = c ++ [CR; LF] /\ s8_stage d (Some (bs "OK")) R8RequestID (list_set (idbuf (ext d)) 1 (id_code idNone)) d' /\ length (idbuf (ext d)) = 24.
Proof.
  intros P N t d e d' c Hs Hr Hh HN HK Hl Hdi H0 H1 Hc.
  destruct (s8_awake_none P N d e d' Hs Hr Hh (proj1 HK)) as (dm & d1 & a & b & HI & Hsame & Hk & Ht & Ea & Hpa & Hol & Eo & Ed & Ef).
  pose proof (s8_stage_same d None R8Ok _ d dm HK Hsame Hk) as HK2. pose proof HK2 as (HA & B1 & B2 & B3 & B4 & B5 & B6 & B7 & B8).
  pose proof HI as ((Hw & _) & _ & Hid & _). assert (Hlm : fLine (fl dm) = true) by (rewrite Ef; assumption).
  unfold s8_output in Eo. rewrite B2, B3 in Eo. cbn [r8_ok negb] in Eo. unfold d_space in Eo.
  destruct (s_space_q (io dm) Hw) as (y & E1 & Q). rewrite E1 in Eo. cbn [bind] in Eo.
  destruct (Nat.ltb_spec (txsz y - txav y) 20) as [Hlt|Hge].
  { exfalso. apply quiet_ioeff in Q. pose proof (ioeff_av _ _ _ _ Q) as [_ A]. pose proof (ioeff_txsz _ _ _ _ Q). cbn [length] in A. lia. }
  change (rssi (set_io y dm)) with (rssi dm) in Eo. destruct (Z.eqb_spec (rssi dm) INT16_MAX); [contradiction|]. cbn [andb] in Eo.
  assert (HIy : swf (set_io y dm)) by (apply (dok_quiet _ _ _ dm y); [apply HI|exact Q]).
  destruct (id_sent _ _ s8_iccid_command (set_io y dm) t c HIy) as (z & W & Ez); try (cbn [ext fl set_io]; congruence); [destruct t; inversion Hc; reflexivity|]. rewrite Ez in Eo. cbn [bind] in Eo. apply ok_inj in Eo. subst d1.
  cbn [io set_io] in W. destruct (wroteb_quiet _ _ _ _ Q W) as (q & I1 & _ & I2). split; [|split; [|congruence]].
  - assert (Hp : put (e_ev e) = q).
    { destruct Hr as ((oo & Eop) & _). destruct Hs as (_ & _ & _ & _ & _ & _ & Hio & _). unfold call_io in Hio. rewrite Eop in Hio. destruct Hio as [_ ->].
      rewrite Ea. unfold acts_put. cbn [map concat]. rewrite Hpa, app_nil_r. cbn [app].
      refine (olab_put _ _ _ _ _ _ _ _ dm _ b [] q _ Hol I1). intros v Hv. destruct (olab_io (s8_shape P) _ _ _ Hv) as (ev & T1 & _ & T2 & _). eauto. }
    rewrite Hp. apply I2. rewrite app_length. cbn [length]. assert (length c <= 9) by (destruct t; inversion Hc; subst c; cbn; lia). lia.
  - rewrite Ed. unfold s8_stage. cbn [ext set_io set_wait set_rst set_x_idbuf set_ext idbuf set_idbuf sst fl rssi wait rst]. rewrite B4. splits; auto.
Qed.
