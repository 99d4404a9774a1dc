(** The SIM800 driver: the signal strength is asked for and reported (C82). *)
From Coq Require Import String Ascii ZArith List Bool Arith Lia ZifyBool ZifyNat.
From Verif Require Import Base QueueSpec LineSpec SerialSpec Ring RingProofs LineRing LineRingProofs Serial SerialProofs
  SerStep TaskMacros CStr CStrProofs Dev DevProofs DevProps SimDev SimProofs SimSpec SimParse SimLog Sym DrvStep DrvCommon DrvRun DrvHist DrvActs DrvHand SimHand DrvSend DrvFetch DrvTalk DrvSession SimQuery Session HandCheck
  Sim800 Sim8Spec Sim8Proofs Sim8Ctl Sim8CtlIn Sim8Run Sim8Hist Sim8Thms Sim8More Sim8Line Sim8Req Sim8Rest Sim8Stuck Sim8Hand Sim8Send Sim8Fetch Sim8Session Sim8Query Sim7Props Sim8Props Sim8HandProps Sim8SendProps Sim8SessionProps.
From Verif Require Sim8ExtraProps.
Import ListNotations.
Local Open Scope nat_scope.
Ltac Zify.zify_post_hook ::= Z.div_mod_to_equations.
Local Notation dv := (dev s8send s8reply simx).
Local Notation ent := (@entry simop).
Local Notation olab8 := (olab r8_ok s8_says s8_tail s8_insend true).

(** Lines without meaning while the answer is awaited. *)
Definition s8_dither (L : bytes) : Prop := s8_murmur L /\ prefixb (bs "+CSQ: ") L = false.
Definition s8_csq_replies (n : Z) : list (option (bytes -> Prop)) := [None; reply (csq_text n); reply (bs "OK")].

Lemma csq_no_id : forall L, prefixb (bs "+CSQ: ") L = true -> id_reply L = None.
Proof. intros L H. apply prefixb_spec in H as [u ->]. reflexivity. Qed.

Lemma s8_line_csq : forall P d ret d' L, s8_handles P d ret d' L -> rst d = R8Csq -> wait d = Some (bs "OK") -> id_reply L = None ->
  s8_refused L = false -> prefixb (bs "OK") L = false -> prefixb (bs "+CIPRXGET: 1,0") L = false -> prefixb (bs "0, CLOSED") L = false ->
  ret = false /\ exists r y, d' = if prefixb (bs "+CSQ: ") L then set_rst R8Ok (set_rssi (csq_dbm (number P (skipn 6 L))) (line_at L r y d)) else line_at L r y d.
Proof.
  intros P d ret d' L (r & y & Hlen & _ & HI & E) Hr Hw Hi F1 F2 F3 F4.
  set (x := line_at L r y d) in *. assert (HL : lbuf x = L ++ NUL :: r) by reflexivity.
  pose proof HI as (_ & _ & Hid & _). unfold s8_parse in E.
  assert (He0 : s8_is_error x = Ok false).
  { unfold s8_is_error. unfold s8_refused in F1. apply orb_false_iff in F1 as [F1 F1c]. apply orb_false_iff in F1 as [F1a F1b].
    rewrite !(lstarts_line L r x HL Hlen) by (reflexivity || (cbn; lia)). cbn [bind]. rewrite ?F1a, ?F1b, ?F1c. reflexivity. }
  rewrite He0 in E. cbn [bind] in E. unfold s8_standard_reply in E. change (wait x) with (wait d) in E. rewrite Hw in E.
  rewrite (lmatch_line L r x HL Hlen) in E by first [reflexivity | cbn; lia]. cbn [bind] in E. rewrite F2 in E.
  assert (Hc : forall d2 : dv, lbuf d2 = lbuf x ->
    (if s8_rank S8Connected <=? s8_rank (sst d2) then let* z := sim_check_connection (bs "0, CLOSED") d2 in Ok (false, z) else Ok (false, d2))%res = Ok (false, d2)).
  { intros d2 Hd2. destruct (_ <=? _); [|reflexivity]. unfold sim_check_connection.
    rewrite !(lstarts_line L r d2 ltac:(congruence) Hlen) by (reflexivity || (cbn; lia)). cbn [bind]. rewrite F3. cbn [bind]. rewrite F4. reflexivity. }
  assert (Hp : forall d2 : dv, lbuf d2 = lbuf x -> length (idbuf (ext d2)) = 24 -> sim_parse_id d2 = Ok (false, d2)).
  { intros d2 Hd2 Hl2. destruct (id_line L r d2 ltac:(congruence) Hlen Hl2) as [(s & I1 & _)|[_ I2]]; [congruence|exact I2]. }
  unfold s8_special_reply in E. change (rst x) with (rst d) in E. rewrite Hr in E. rewrite (csq_line P L r x HL Hlen) in E.
  destruct (prefixb (bs "+CSQ: ") L); cbn [bind] in E; rewrite Hp in E by (reflexivity || exact Hid); cbn [bind] in E; rewrite Hc in E by reflexivity; apply ok_inj in E; apply pair_eq in E as [<- <-]; (split; [reflexivity|]); exists r, y; reflexivity.
Qed.

(** The query has been sent. *)
Definition s8_gauge (d0 : dv) (b : bytes) (x : dv) : Prop :=
  s8_awake x /\ rssi x = INT16_MAX /\ wait x = Some (bs "OK") /\ rst x = R8Csq /\ idbuf (ext x) = b /\ sst x = sst d0 /\ fIp (fl x) = fIp (fl d0) /\
  s8_params x = s8_params d0 /\ s8_address x = s8_address d0.

Lemma s8_gauge_none : forall P N d0 b x e x', s8_step P x e x' -> roomy N x e -> hears None e -> s8_gauge d0 b x -> s8_gauge d0 b x' /\ put (e_ev e) = [].
Proof.
  intros P N d0 b x e x' Hs Hr Hh HK.
  destruct (s8_awake_none P N x e x' Hs Hr Hh (proj1 HK)) as (dm & d1 & a & c & HI & Hsame & Hk & Ht & Ea & Hpa & Hol & Eo & Ed & _).
  assert (HK2 : s8_gauge d0 b dm).
  { destruct HK as ((A1 & A2 & A3) & B1 & B2 & B3 & B4 & B5 & B6 & B7 & B8), Hsame as (S1 & S2 & S3 & S4 & S5 & S6 & S7 & S8 & S9 & S10 & S11 & S12), Hk as ((K1 & K2 & K3 & K4 & K5 & K6) & K7).
    unfold s8_gauge, s8_awake, s8_params, s8_address in *. rewrite S6, K1, K4, K5, K6. splits; auto; congruence. }
  assert (Hpm : s8_pending dm) by (left; destruct HK2 as (_ & _ & -> & _); discriminate).
  pose proof (s8_pending_output dm d1 Eo Hpm) as ->. rewrite Ed. split; [exact HK2|]. exact (s8_put_nil P x e x' a c dm Hs (proj1 Hr) Ea Hpa Hol).
Qed.

Lemma s8_gauge_dither : forall P N d0 b x e x', s8_step P x e x' -> roomy N x e -> hears (Some s8_dither) e -> s8_gauge d0 b x -> s8_gauge d0 b x' /\ put (e_ev e) = [].
Proof.
  intros P N d0 b x e x' Hs Hr Hh HK. pose proof HK as (HA & B1 & B2 & B3 & B4 & B5 & B6 & B7 & B8).
  destruct (s8_reads_line P N x e x' s8_dither Hs Hr Hh HA) as (L & r & d2 & z & [HL HL2] & Hx & Hk & Hrest).
  destruct (s8_murmur_id L HL) as (F1 & F2 & F3 & F4).
  destruct (s8_line_csq P _ r d2 L Hx B3 B2 (proj2 HL) F1 F2 F3 F4) as (-> & r0 & y & ->). rewrite HL2 in *.
  destruct Hrest as [Z|(d1 & a & c & HI & Ht & Ea & Hpa & Hol & Eo & Ed)]; [discriminate Z|].
  assert (HK2 : s8_gauge d0 b (line_at L r0 y (set_io z x))) by exact HK.
  assert (Hpm : s8_pending (line_at L r0 y (set_io z x))) by (left; change (wait x <> None); congruence).
  pose proof (s8_pending_output _ d1 Eo Hpm) as ->. rewrite Ed. split; [exact HK2|]. exact (s8_put_nil P x e x' a c _ Hs (proj1 Hr) Ea Hpa Hol).
Qed.

Lemma s8_gauge_answer : forall P N d0 b n x e x', s8_step P x e x' -> roomy N x e -> hears (reply (csq_text n)) e -> (0 <= n < 2147483648)%Z -> s8_gauge d0 b x ->
  s8_stage d0 (Some (bs "OK")) R8Ok b x' /\ rssi x' = dbm n /\ put (e_ev e) = [].
Proof.
  intros P N d0 b n x e x' Hs Hr Hh Hn HK. pose proof HK as (HA & B1 & B2 & B3 & B4 & B5 & B6 & B7 & B8).
  destruct (s8_reads_line P N x e x' _ Hs Hr Hh HA) as (L & r & d2 & z & HL & Hx & Hk & Hrest). destruct (csq_text_calm n L HL) as [G1 G2].
  destruct (s8_line_csq P _ r d2 L Hx B3 B2 (csq_no_id L G1) ltac:(unfold s8_refused; rewrite !G2 by reflexivity; reflexivity) ltac:(apply G2; reflexivity) ltac:(apply G2; reflexivity) ltac:(apply G2; reflexivity)) as (-> & r0 & y & ->).
  rewrite G1, (csq_text_value P n L Hn HL) in *.
  destruct Hrest as [Z|(d1 & a & c & HI & Ht & Ea & Hpa & Hol & Eo & Ed)]; [discriminate Z|].
  assert (Hpm : s8_pending (set_rst R8Ok (set_rssi (dbm n) (line_at L r0 y (set_io z x))))) by (left; change (wait x <> None); congruence).
  pose proof (s8_pending_output _ d1 Eo Hpm) as ->. rewrite Ed. splits; [|reflexivity|exact (s8_put_nil P x e x' a c _ Hs (proj1 Hr) Ea Hpa Hol)].
  unfold s8_stage. splits; auto. change (dbm n <> INT16_MAX). pose proof (dbm_range n). unfold INT16_MAX. lia.
Qed.

(** The run() that sends the query. *)
Lemma s8_measures : forall P N d e d', s8_step P d e d' -> roomy N d e -> hears None e -> 20 <= N -> s8_awake d -> rssi d = INT16_MAX -> wait d = None -> rst d = R8Ok -> fLine (fl d) = true -> fDisc (fl d) = false ->
  put (e_ev e) = bs "AT+CSQ" ++ [CR; LF] /\ s8_gauge d (idbuf (ext d)) d'.
Proof.
  intros P N d e d' Hs Hr Hh HN HA H1 H2 H3 H4 H5.
  destruct (s8_awake_none P N d e d' Hs Hr Hh HA) as (dm & d1 & a & b & HI & Hsame & Hk & Ht & Ea & Hpa & Hol & Eo & Ed & Ef).
  destruct Hsame as (S1 & S2 & S3 & S4 & S5 & S6 & S7 & S8 & S9 & S10 & S11 & S12). destruct Hk as ((K1 & K2 & K3 & K4 & K5 & K6) & K7).
  destruct (Sim8ExtraProps.s8_query_output dm d1 HI Eo) as [Q1 Q2]; try congruence; [rewrite Ef; assumption|lia|]. split.
  - destruct Hr as ((oo & Eop) & _). destruct Hs as (_ & _ & _ & _ & _ & _ & Hio & _). unfold call_io in Hio. rewrite Eop in Hio. destruct Hio as [_ ->].
    rewrite Ea. unfold acts_put. cbn [map concat]. rewrite Hpa, app_nil_r. cbn [app].
    refine (olab_put _ _ _ _ _ _ _ _ dm d1 b [] _ _ Hol Q1). intros v Hv. destruct (olab_io (s8_shape P) _ _ _ Hv) as (ev & T1 & _ & T2 & _). eauto.
  - rewrite Ed, Q2. cut (s8_awake dm /\ rssi dm = INT16_MAX /\ idbuf (ext dm) = idbuf (ext d) /\ sst dm = sst d /\ fIp (fl dm) = fIp (fl d) /\ s8_params dm = s8_params d /\ s8_address dm = s8_address d).
    { intros (C1 & C2 & C3 & C4 & C5 & C6 & C7). unfold s8_gauge. splits; auto. }
    destruct HA as (A1 & A2 & A3). unfold s8_awake, s8_params, s8_address in *. rewrite S6, K1, K4, K5, K6. splits; auto; congruence.
Qed.

(** The strength only changes while an answer is awaited. *)
Lemma s8_rssi_kept : forall P N d e d', s8_step P d e d' -> roomy N d e -> s8_awake d -> rst d = R8Ok -> rssi d' = rssi d.
Proof.
  intros P N d e d' Hs ((oo & Eo) & Ht) (H1 & H2 & H3) Hr0.
  destruct (s8_parts P d e d' oo Hs Eo) as (d1 & Hd & [(_ & [E|E] & _)|(_ & _ & l & dp & Hp & Hr)]); [congruence|congruence|].
  destruct Hp as [(F & -> & ->)|(F & _)]; [|change (fReset (fl d) = true) in F; congruence].
  destruct Hr as (a & d2 & r & Hi & [HI Hx] & Hr).
  assert (H : rssi d2 = rssi d).
  { destruct a; try (destruct Hx as (_ & _ & _ & _ & X & _); exact X). destruct Hx as [_ Hx]. apply s8_line_effect in Hx. unfold s8_effect in Hx. change (rst (during (e_sch e) d)) with (rst d) in Hx. rewrite Hr0 in Hx.
    destruct (s8_refused _); destruct Hx as (X & _); exact X. }
  rewrite Hd. destruct Hr as [(_ & -> & _)|(b & _ & Hol & Hox)]; [exact H|]. destruct (s8_out_effect _ _ _ Hol Hox) as (E1 & _). change (rssi d1 = rssi d). congruence.
Qed.

(** Between the parts of a session, requestRSSI() makes the next run() send AT+CSQ, once;
    getRSSI() then returns the value in the answer, in dBm, and the session can go on. *)
Theorem C82_sim8_measured : forall P N c n d e d1 tr d2, s8_between c d -> s8_step P d e d1 -> e_op e = OpRequestRSSI -> (0 <= n < 2147483648)%Z ->
  dialogue (s8_step P) s8_dither N (s8_csq_replies n) d1 tr d2 -> 20 <= N ->
  sent tr = commands [bs "AT+CSQ"] /\ s8_between c d2 /\ s8_params d2 = s8_params d /\ s8_address d2 = s8_address d /\ rbuf d2 = rbuf d /\ idbuf (ext d2) = idbuf (ext d) /\ payloads (e :: tr) = [] /\
  forall e' d3, s8_step P d2 e' d3 -> e_op e' = OpGetRSSI -> e_out e' = DNum (dbm n).
Proof.
  intros P N c n d e d1 tr d2 HB Hs Eo Hn Hd HN. pose proof (s8_between_calm c d HB) as HC. pose proof HB as (R & F1 & F2 & F3 & F4 & F5 & F6 & Fm & F7 & F8 & F9). pose proof (empty_avail _ F8 F9) as F10.
  assert (G : s8_going d /\ wait d = None /\ rst d = R8Ok /\ ((sst d = S8Connected /\ fIp (fl d) = true) \/ sst d = S8NotConnected)) by (destruct c; [destruct R as (R1 & _ & R0 & R2 & R3 & R4)|destruct R as (R1 & R2 & R3 & R4 & _)]; splits; auto).
  destruct G as ((G1 & G2 & G3 & G4 & G5) & Gw & Gr & Gs).
  destruct (call_silent _ _ _ _ _ _ _ _ _ _ _ Hs ltac:(rewrite Eo; reflexivity)) as [Pe _].
  pose proof Hs as (_ & _ & _ & E & _). rewrite Eo in E. destruct (called _ _ _ _ _ _ _ E) as (z & x & Ex & Ed). cbn [d_call] in Ex. apply ok_inj in Ex. apply pair_eq in Ex as [_ <-].
  assert (C1 : s8_calm (rbuf d) (Some (wbuf d)) false false d1) by (rewrite Ed; exact HC).
  assert (S1 : s8_awake d1 /\ rssi d1 = INT16_MAX /\ wait d1 = None /\ rst d1 = R8Ok /\ fLine (fl d1) = true /\ fDisc (fl d1) = false) by (unfold s8_awake; rewrite Ed; splits; auto). destruct S1 as (S1 & S2 & S3 & S4 & S5 & S6).
  assert (Q1 : s8_params d1 = s8_params d /\ s8_address d1 = s8_address d /\ sst d1 = sst d /\ fIp (fl d1) = fIp (fl d) /\ idbuf (ext d1) = idbuf (ext d)) by (rewrite Ed; splits; reflexivity).
  assert (Hharm : forall L, s8_dither L -> s8_harmless L).
  { intros L [HL _]. destruct (s8_murmur_id L HL) as (Y1 & Y2 & Y3 & Y4). destruct HL as [HL _]. apply s8_noise_inv in HL as (L1 & L2 & L3 & L4 & L5 & L6 & L7 & L8). unfold s8_harmless.
    pose proof (no_prefix (bs "0, CONNECT") (bs " FAIL") L L4). pose proof (no_prefix (bs "+CDNSGIP") (bs ": 0") L L5). splits; auto. }
  assert (Hansw : forall L, prefixb (csq_text n) L = true -> s8_harmless L).
  { intros L HL. destruct (csq_text_calm n L HL) as [_ G]. unfold s8_harmless, s8_refused. rewrite !G by reflexivity. splits; reflexivity. }
  assert (Hlook : forall x e x', s8_step P x e x' -> looks (e_op e) = true -> s8_calm (rbuf d) (Some (wbuf d)) false false x -> s8_calm (rbuf d) (Some (wbuf d)) false false x' /\ payload e = []).
  { intros x e0 x' H1 H2 H3. destruct (s8_looks P x e0 x' H1 H2) as (-> & _ & H4). split; [exact H3|exact H4]. }
  assert (Hkeep : s8_calm (rbuf d) (Some (wbuf d)) false false d2 /\ payloads tr = []).
  { refine (dialogue_keeps _ s8_dither s8_harmless N _ Hharm Hlook _ _ d1 tr d2 Hd _ C1).
    - intros x e0 x' H1 H2 H3 H4. exact (s8_calm_run P N _ _ _ _ x e0 x' H1 H2 H3 H4).
    - unfold s8_csq_replies. repeat (apply Forall_cons); [exact I|exact Hansw| |apply Forall_nil]. intros L HL. apply (s8_reply_harmless "OK"); [cbn; tauto|exact HL]. }
  destruct Hkeep as [C2 Pt]. unfold s8_csq_replies in Hd.
  (* the query is sent *)
  destruct (dialogue_next (s8_step P) s8_dither N None [reply (csq_text n); reply (bs "OK")] d1 tr d2 (fun x => exists y, x = set_io y d1)) with (3 := Hd) as (tr1 & e1 & tr2 & x1 & x2 & E1 & T1 & (y1 & ->) & Hs1 & Hr1 & Hh1 & Hd1).
  { intros x e0 x' H1 H2 (y & ->). destruct (s8_looks P _ e0 x' H1 H2) as (-> & H3 & _). split; [eexists; reflexivity|exact H3]. }
  { discriminate. }
  { exists (io d1). destruct d1; reflexivity. }
  destruct (s8_measures P N (set_io y1 d1) e1 x2 Hs1 Hr1 Hh1 HN S1 S2 S3 S4 S5 S6) as [T2 H2].
  change (ext (set_io y1 d1)) with (ext d1) in H2. change (s8_gauge d1 (idbuf (ext d1)) x2) in H2. set (b := idbuf (ext d1)) in *.
  assert (C3 : s8_calm (rbuf d) (Some (wbuf d)) false false x2) by exact (proj1 (s8_calm_run P N _ _ _ _ (set_io y1 d1) e1 x2 Hs1 Hr1 (or_introl Hh1) C1)).
  (* the answer *)
  assert (Hok : Some (bs "OK") <> None) by discriminate.
  destruct (dialogue_next (s8_step P) s8_dither N (reply (csq_text n)) [reply (bs "OK")] x2 tr2 d2 (fun x => s8_gauge d1 b x /\ s8_calm (rbuf d) (Some (wbuf d)) false false x)) with (3 := Hd1) as (tr3 & e2 & tr4 & x3 & x4 & E2 & T3 & (H3 & C4) & Hs2 & Hr2 & Hh2 & Hd2).
  { intros x e0 x' K1 K2 [K3 K4]. destruct (s8_looks P x e0 x' K1 K2) as (-> & K5 & _). split; [split; [exact K3|exact K4]|exact K5]. }
  { intros p Hp x e0 x' K1 K2 K3 [K4 K5]. destruct K3 as [K3|(tk & L & I1 & I2 & _)].
    - destruct (s8_gauge_none P N d1 b x e0 x' K1 K2 K3 K4) as [A1 A2]. split; [split; [exact A1|]|exact A2]. exact (proj1 (s8_calm_run P N _ _ _ _ x e0 x' K1 K2 (or_introl K3) K5)).
    - assert (K3 : hears (Some s8_dither) e0) by (exists tk, L; auto). destruct (s8_gauge_dither P N d1 b x e0 x' K1 K2 K3 K4) as [A1 A2]. split; [split; [exact A1|]|exact A2].
      refine (proj1 (s8_calm_run P N _ _ _ _ x e0 x' K1 K2 (or_intror _) K5)). exists tk, L. auto. }
  { split; assumption. }
  destruct (s8_gauge_answer P N d1 b n x3 e2 x4 Hs2 Hr2 Hh2 Hn H3) as (H4 & R4 & T4).
  assert (C5 : s8_calm (rbuf d) (Some (wbuf d)) false false x4).
  { refine (proj1 (s8_calm_run P N _ _ _ _ x3 e2 x4 Hs2 Hr2 (or_intror _) C4)). destruct Hh2 as (tk & L & I1 & I2). exists tk, L. auto. }
  (* OK *)
  destruct (dialogue_next (s8_step P) s8_dither N (reply (bs "OK")) [] x4 tr4 d2 (fun x => (s8_stage d1 (Some (bs "OK")) R8Ok b x /\ rssi x = dbm n) /\ s8_calm (rbuf d) (Some (wbuf d)) false false x)) with (3 := Hd2) as (tr5 & e3 & tr6 & x5 & x6 & E3 & T5 & ((H5 & R5) & C6) & Hs3 & Hr3 & Hh3 & Hd3).
  { intros x e0 x' K1 K2 [K3 K4]. destruct (s8_looks P x e0 x' K1 K2) as (-> & K5 & _). split; [split; [exact K3|exact K4]|exact K5]. }
  { intros p Hp x e0 x' K1 K2 K3 [[K4 Kr] K5]. destruct K3 as [K3|(tk & L & I1 & I2 & _)].
    - destruct (s8_stage_none P N d1 (Some (bs "OK")) R8Ok b x e0 x' K1 K2 K3 (or_introl Hok) K4) as [A1 A2]. split; [split; [split; [exact A1|]|]|exact A2].
      + rewrite (s8_rssi_kept P N x e0 x' K1 K2 (proj1 K4) ltac:(apply K4)). exact Kr.
      + exact (proj1 (s8_calm_run P N _ _ _ _ x e0 x' K1 K2 (or_introl K3) K5)).
    - assert (K3 : hears (Some s8_murmur) e0) by (exists tk, L; destruct I2; auto). destruct (s8_stage_noise P N d1 _ x e0 x' K1 K2 K3 K4) as [A1 A2]. split; [split; [split; [exact A1|]|]|exact A2].
      + rewrite (s8_rssi_kept P N x e0 x' K1 K2 (proj1 K4) ltac:(apply K4)). exact Kr.
      + refine (proj1 (s8_calm_run P N _ _ _ _ x e0 x' K1 K2 (or_intror _) K5)). exists tk, L. auto. }
  { split; [split; assumption|assumption]. }
  destruct C6 as (_ & _ & _ & _ & _ & _ & D1 & _ & _ & _ & _ & _ & _ & _ & _ & _ & D2 & D3 & D4). destruct (D2 _ eq_refl) as (W1 & W2 & _).
  destruct Q1 as (Q1 & Q2 & Q3 & Q4 & Q5).
  destruct (s8_stage_done P N d1 b x5 e3 x6 Hs3 Hr3 Hh3 H5) as (H6 & T6 & H6c); try lia; auto; try congruence.
  { destruct D4 as [[D4 _]|D4]; [discriminate D4|exact D4]. } { destruct D3 as [[D3 _]|D3]; [discriminate D3|exact D3]. }
  assert (R6 : rssi x6 = dbm n) by (rewrite (s8_rssi_kept P N x5 e3 x6 Hs3 Hr3 (proj1 H5) ltac:(apply H5)); exact R5).
  destruct (dialogue_end (s8_step P) s8_dither N x6 tr6 d2 (fun x => s8_stage d1 None R8Ok b x /\ cst x = cst x6 /\ rssi x = dbm n)) as (T7 & HE & H7 & R7); [|exact Hd3|splits; [exact H6|reflexivity|exact R6]|].
  { intros x e0 x' K1 K2 [K3 K4]. destruct (s8_looks P x e0 x' K1 K2) as (-> & K5 & _). split; [split; [exact K3|exact K4]|exact K5]. }
  destruct HE as (U0 & U1 & U2 & U3 & U4 & U5 & U6 & U7 & U8). destruct C2 as (_ & _ & _ & M1 & M2 & M3 & M4 & M5 & _ & _ & _ & M6 & _ & _ & _ & _ & M7 & M8 & M9). destruct (M7 _ eq_refl) as (W3 & _).
  assert (Hb : no_request b) by (rewrite Q5; exact G5).
  assert (Hg : s8_going d2) by (unfold s8_going; destruct U0 as (U0 & U0' & U0''); rewrite U4; splits; auto).
  splits.
  - rewrite E1, sent_app, T1, sent_cons, T2, E2, sent_app, T3, sent_cons, T4, E3, sent_app, T5, sent_cons, T6, T7. reflexivity.
  - unfold s8_between. rewrite M5, W3. splits; auto; [|destruct M8 as [[M8 _]|M8]; [discriminate M8|exact M8]|destruct M9 as [[M9 _]|M9]; [discriminate M9|exact M9]].
    destruct c; [destruct R as (_ & _ & V2 & V3 & _)|destruct R as (_ & V3 & _ & _ & V2)].
    + unfold s8_at_ease, ip_is_connected. rewrite H7, H6c by congruence. splits; auto; congruence.
    + unfold s8_at_rest. splits; auto; try congruence. destruct M9 as [[M9 _]|M9]; [discriminate M9|exact M9].
  - congruence.
  - congruence.
  - exact M5.
  - rewrite U4. exact Q5.
  - rewrite payloads_cons, Pe, Pt. reflexivity.
  - intros e' d3 Hs4 Eo4. pose proof Hs4 as (_ & _ & _ & E4 & _). rewrite Eo4 in E4. destruct (called _ _ _ _ _ _ _ E4) as (z4 & x7 & Ex & _). cbn [d_call] in Ex. apply ok_inj in Ex. apply pair_eq in Ex as [<- _].
    change (DNum (rssi d2) = DNum (dbm n)). rewrite R7. reflexivity.
Qed.

Definition s8_asks_csq : @script simop := [call OpRequestRSSI].
Definition s8_csq_answers : @script simop := runs_ 1 ++ dialog [crlf (bs ""); crlf (bs "+CREG: 1")] ++ [modem (bs "+CSQ: 1")] ++ dialog [crlf (bs "7,99"); crlf (bs ""); crlf (bs "OK")].
Definition s8_csq_check : list (option (bytes -> bool)) := [None; Some (prefixb (bs "+CSQ: 17,")); Some (prefixb (bs "OK"))].
Example C82_sim8_measured_case : exists d0 tr0 d e d1 tr d2 e' d3, s8_built d0 /\ s8_hist PA d0 tr0 d /\ s8_between false d /\
  s8_step PA d e d1 /\ e_op e = OpRequestRSSI /\ dialogue (s8_step PA) s8_dither 64 (s8_csq_replies 17) d1 tr d2 /\
  s8_step PA d2 e' d3 /\ e_op e' = OpGetRSSI /\ sent tr = crlf (bs "AT+CSQ") /\ e_out e' = DNum (-79).
Proof.
  destruct s8_ex_built as (d0 & E0 & Hb).
  set (h := s8_prepare ++ s8_asks_csq ++ s8_csq_answers ++ [call OpGetRSSI]).
  assert (Hrun : exists d outs, d_run (s8_driver PA) d0 h = Ok (d, outs)).
  { assert (H : then_ (s8_driver PA) s8_ex h (fun _ => true) = true) by (vm_compute; reflexivity). unfold then_ in H. rewrite E0 in H.
    destruct (d_run (s8_driver PA) d0 h) as [[d outs]|u]; [eauto|discriminate H]. }
  destruct Hrun as (d3 & outs & Hrun).
  assert (Hv : s8_valid h). { apply (validb_ok _ (fun x => match x with SetApn p => strb p | _ => true end)); [intros [] H; try exact I; apply strb_ok, H|vm_compute; reflexivity]. }
  destruct (s8_every_run PA d0 h d3 outs Hb Hv Hrun) as (tra & Ha & Em & _). unfold h in Em.
  destruct (hist_part _ _ _ _ _ _ _ _ _ Ha Em) as (tr0 & trb & d & o1 & _ & M0 & Mb & H0 & Hb1 & R1).
  destruct (hist_part _ _ _ _ _ _ _ _ _ Hb1 Mb) as (tre & trc & d1 & o2 & _ & Me & Mc & He & Hc1 & R2).
  destruct (hist_one _ _ _ _ _ _ _ _ _ He Me) as (e & tre' & d1' & -> & Eo & _ & Me' & Hs & He' & _). apply map_eq_nil in Me'. subst tre'. inversion He'; subst. clear He'.
  destruct (hist_part _ _ _ _ _ _ _ _ _ Hc1 Mc) as (tr & trd & d2 & o3 & _ & Mt & Md & Ht & Hd1 & R3).
  destruct (hist_one _ _ _ _ _ _ _ _ _ Hd1 Md) as (e' & trd' & d3' & -> & Eo' & _ & Md' & Hs' & Hd' & _). apply map_eq_nil in Md'. subst trd'. inversion Hd'; subst. clear Hd'.
  assert (C1 : then_ (s8_driver PA) s8_ex s8_prepare (fun x => match d_run (s8_driver PA) x s8_asks_csq with
    Ok (y, _) => talks (s8_driver PA) (fun L => silentb s8_quiet_words L && no_idb L && negb (prefixb (bs "+CSQ: ") L)) (fun _ => true) 64 s8_csq_check s8_csq_answers y | _ => false end) = true) by (vm_compute; reflexivity).
  apply (then_at _ _ _ _ _ _ _ _ _ _ _ E0 R1) in C1. cbv beta in C1. rewrite R2 in C1.
  assert (HB : s8_between false d).
  { refine (proj1 (C79_sim8_prepared PA false d0 tr0 d (proj1 (C79_sim8_fresh d0 Hb _)) H0 _)).
    - clear -E0. assert (H : then_ (s8_driver PA) s8_ex [] (fun x => isopen x) = true) by (vm_compute; reflexivity). unfold then_ in H. rewrite E0 in H. exact H.
    - apply Forall_forall. intros x Hx. assert (Hi : In (e_op x, e_sch x) s8_prepare) by (rewrite <- M0; exact (in_map (fun e => (e_op e, e_sch e)) tr0 x Hx)).
      destruct Hi as [Hi|[Hi|[]]]; injection Hi as <- _; reflexivity. }
  assert (HD : dialogue (s8_step PA) s8_dither 64 (s8_csq_replies 17) d1 tr d2).
  { rewrite <- Mt in C1. refine (dialogue_same _ _ _ _ _ _ _ _ _ _ _ (talks_dialogue (s8_driver PA) (s8_shape PA) s8_all s8_goodx s8_dither (fun L => silentb s8_quiet_words L && no_idb L && negb (prefixb (bs "+CSQ: ") L)) _ (fun _ => true) _ 64 tr d1 d2 Ht _ C1) _ _).
    - intros L HL. apply andb_prop in HL as [HL HL3]. apply andb_prop in HL as [HL1 HL2]. apply negb_true_iff in HL3. split; [|exact HL3]. split; [apply (proj1 (silentb_ok _ L)), HL1|]. unfold no_idb in HL2. destruct (id_reply L); [discriminate HL2|reflexivity].
    - intros x _. split; [exact whole_ends|intros L H; exact H].
    - apply Forall2_cons; [exact I|]. apply Forall2_cons; [intro; apply iff_refl|]. apply Forall2_cons; [intro; apply iff_refl|apply Forall2_nil]. }
  cbn [fst call] in Eo, Eo'. assert (Hlt : 20 <= 64) by lia.
  destruct (C82_sim8_measured PA 64 false 17 d e d1 tr d2 HB Hs Eo ltac:(lia) HD Hlt) as (Z1 & _ & _ & _ & _ & _ & _ & Z2).
  exists d0, tr0, d, e, d1, tr, d2, e', d3. splits; auto.
  rewrite (Z2 e' d3 Hs' Eo'). reflexivity.
Qed.

Print Assumptions C82_sim8_measured.
