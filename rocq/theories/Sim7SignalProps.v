(** The SIM7x00 driver: the signal strength is asked for and reported (C82). *)
From Coq Require Import String Ascii ZArith List Bool Arith Lia ZifyBool ZifyNat.
From Verif Require Import Base QueueSpec LineSpec SerialSpec Ring RingProofs LineRing LineRingProofs Serial SerialProofs
  SerStep TaskMacros CStr CStrProofs Dev DevProofs DevProps SimDev SimProofs SimSpec SimParse SimLog Sym DrvStep DrvCommon DrvRun DrvHist DrvActs DrvHand SimHand DrvSend DrvFetch DrvTalk DrvSession SimQuery Session HandCheck
  Sim7x00 Sim7Spec Sim7Proofs Sim7Ctl Sim7CtlIn Sim7Run Sim7Hist Sim7Thms Sim7More Sim7Line Sim7Req Sim7Rest Sim7Stuck Sim7Hand Sim7Send Sim7Fetch Sim7Session Sim7Query Sim7Props Sim7HandProps Sim7SendProps Sim7SessionProps.
From Verif Require Sim7ExtraProps.
Import ListNotations.
Local Open Scope nat_scope.
Ltac Zify.zify_post_hook ::= Z.div_mod_to_equations.
Local Notation dv := (dev s7send s7reply simx).
Local Notation ent := (@entry simop).
Local Notation olab7 := (olab r7_ok s7_says s7_tail s7_insend true).

(** Lines without meaning while the answer is awaited. *)
Definition s7_dither (L : bytes) : Prop := s7_murmur L /\ prefixb (bs "+CSQ: ") L = false.
Definition s7_csq_replies (n : Z) : list (option (bytes -> Prop)) := [None; reply (csq_text n); reply (bs "OK")].

Lemma s7_line_csq : forall P d ret d' L, s7_handles P d ret d' L -> rst d = R7Csq -> wait d = Some (bs "OK") ->
  prefixb (bs "ERROR") L = false -> prefixb (bs "OK") L = false -> prefixb (bs "+CIPRXGET: 1,0") L = false -> prefixb (bs "+IPCLOSE: 0,") L = false ->
  ret = false /\ exists r y, d' = if prefixb (bs "+CSQ: ") L then set_rst R7Ok (set_rssi (csq_dbm (number P (skipn 6 L))) (line_at L r y d)) else line_at L r y d.
Proof.
  intros P d ret d' L (r & y & Hlen & _ & HI & E) Hr Hw F1 F2 F3 F4.
  set (x := line_at L r y d) in *. assert (HL : lbuf x = L ++ NUL :: r) by reflexivity.
  unfold s7_parse, s7_standard_reply in E. change (wait x) with (wait d) in E. rewrite Hw in E.
  rewrite (lmatch_line L r x HL Hlen) in E by first [reflexivity | cbn; lia]. cbn [bind] in E. rewrite F2 in E.
  rewrite (lstarts_line L r x HL Hlen) in E by (reflexivity || (cbn; lia)). cbn [bind] in E. rewrite F1 in E. cbn [bind] in E.
  assert (Hc : forall d2 : dv, lbuf d2 = lbuf x ->
    (if s7_rank S7Connected <=? s7_rank (sst d2) then let* z := sim_check_connection (bs "+IPCLOSE: 0,") d2 in Ok (false, z) else Ok (false, d2))%res = Ok (false, d2)).
  { intros d2 Hd2. destruct (_ <=? _); [|reflexivity]. unfold sim_check_connection.
    rewrite !(lstarts_line L r d2 ltac:(congruence) Hlen) by (reflexivity || (cbn; lia)). cbn [bind]. rewrite F3. cbn [bind]. rewrite F4. reflexivity. }
  unfold s7_special_reply in E. change (rst x) with (rst d) in E. rewrite Hr in E. rewrite (csq_line P L r x HL Hlen) in E.
  destruct (prefixb (bs "+CSQ: ") L); cbn [bind] in E; rewrite Hc in E by reflexivity; apply ok_inj in E; apply pair_eq in E as [<- <-]; (split; [reflexivity|]); exists r, y; reflexivity.
Qed.

(** The query has been sent. *)
Definition s7_gauge (d0 : dv) (b : bytes) (x : dv) : Prop :=
  s7_awake x /\ rssi x = INT16_MAX /\ wait x = Some (bs "OK") /\ rst x = R7Csq /\ idbuf (ext x) = b /\ sst x = sst d0 /\ fIp (fl x) = fIp (fl d0) /\
  s7_params x = s7_params d0 /\ s7_address x = s7_address d0.

Lemma s7_gauge_none : forall P N d0 b x e x', s7_step P x e x' -> roomy N x e -> hears None e -> s7_gauge d0 b x -> s7_gauge d0 b x' /\ put (e_ev e) = [].
Proof.
  intros P N d0 b x e x' Hs Hr Hh HK.
  destruct (s7_awake_none P N x e x' Hs Hr Hh (proj1 HK)) as (dm & d1 & a & c & HI & Hsame & Hk & Ht & Ea & Hpa & Hol & Eo & Ed & _).
  assert (HK2 : s7_gauge d0 b dm).
  { destruct HK as ((A1 & A2 & A3) & B1 & B2 & B3 & B4 & B5 & B6 & B7 & B8), Hsame as (S1 & S2 & S3 & S4 & S5 & S6 & S7 & S8 & S9 & S10 & S11 & S12), Hk as ((K1 & K2 & K3 & K4 & K5 & K6) & K7).
    unfold s7_gauge, s7_awake, s7_params, s7_address in *. rewrite S6, K1, K4, K5, K6. splits; auto; congruence. }
  assert (Hpm : s7_pending dm) by (left; destruct HK2 as (_ & _ & -> & _); discriminate).
  pose proof (s7_pending_output dm d1 Eo Hpm) as ->. rewrite Ed. split; [exact HK2|]. exact (s7_put_nil P x e x' a c dm Hs (proj1 Hr) Ea Hpa Hol).
Qed.

Lemma s7_gauge_dither : forall P N d0 b x e x', s7_step P x e x' -> roomy N x e -> hears (Some s7_dither) e -> s7_gauge d0 b x -> s7_gauge d0 b x' /\ put (e_ev e) = [].
Proof.
  intros P N d0 b x e x' Hs Hr Hh HK. pose proof HK as (HA & B1 & B2 & B3 & B4 & B5 & B6 & B7 & B8).
  destruct (s7_reads_line P N x e x' s7_dither Hs Hr Hh HA) as (L & r & d2 & z & [HL HL2] & Hx & Hk & Hrest).
  destruct (s7_murmur_id L HL) as (F1 & F2 & F3 & F4).
  destruct (s7_line_csq P _ r d2 L Hx B3 B2 F1 F2 F3 F4) as (-> & r0 & y & ->). rewrite HL2 in *.
  destruct Hrest as [Z|(d1 & a & c & HI & Ht & Ea & Hpa & Hol & Eo & Ed)]; [discriminate Z|].
  assert (HK2 : s7_gauge d0 b (line_at L r0 y (set_io z x))) by exact HK.
  assert (Hpm : s7_pending (line_at L r0 y (set_io z x))) by (left; change (wait x <> None); congruence).
  pose proof (s7_pending_output _ d1 Eo Hpm) as ->. rewrite Ed. split; [exact HK2|]. exact (s7_put_nil P x e x' a c _ Hs (proj1 Hr) Ea Hpa Hol).
Qed.

Lemma s7_gauge_answer : forall P N d0 b n x e x', s7_step P x e x' -> roomy N x e -> hears (reply (csq_text n)) e -> (0 <= n < 2147483648)%Z -> s7_gauge d0 b x ->
  s7_stage d0 (Some (bs "OK")) R7Ok b x' /\ rssi x' = dbm n /\ put (e_ev e) = [].
Proof.
  intros P N d0 b n x e x' Hs Hr Hh Hn HK. pose proof HK as (HA & B1 & B2 & B3 & B4 & B5 & B6 & B7 & B8).
  destruct (s7_reads_line P N x e x' _ Hs Hr Hh HA) as (L & r & d2 & z & HL & Hx & Hk & Hrest). destruct (csq_text_calm n L HL) as [G1 G2].
  destruct (s7_line_csq P _ r d2 L Hx B3 B2 ltac:(apply G2; reflexivity) ltac:(apply G2; reflexivity) ltac:(apply G2; reflexivity) ltac:(apply G2; reflexivity)) as (-> & r0 & y & ->).
  rewrite G1, (csq_text_value P n L Hn HL) in *.
  destruct Hrest as [Z|(d1 & a & c & HI & Ht & Ea & Hpa & Hol & Eo & Ed)]; [discriminate Z|].
  assert (Hpm : s7_pending (set_rst R7Ok (set_rssi (dbm n) (line_at L r0 y (set_io z x))))) by (left; change (wait x <> None); congruence).
  pose proof (s7_pending_output _ d1 Eo Hpm) as ->. rewrite Ed. splits; [|reflexivity|exact (s7_put_nil P x e x' a c _ Hs (proj1 Hr) Ea Hpa Hol)].
  unfold s7_stage. splits; auto. change (dbm n <> INT16_MAX). pose proof (dbm_range n). unfold INT16_MAX. lia.
Qed.

(** The run() that sends the query. *)
Lemma s7_measures : forall P N d e d', s7_step P d e d' -> roomy N d e -> hears None e -> 20 <= N -> s7_awake d -> rssi d = INT16_MAX -> wait d = None -> rst d = R7Ok -> fLine (fl d) = true -> fDisc (fl d) = false ->
  put (e_ev e) = bs "AT+CSQ" ++ [CR; LF] /\ s7_gauge d (idbuf (ext d)) d'.
Proof.
  intros P N d e d' Hs Hr Hh HN HA H1 H2 H3 H4 H5.
  destruct (s7_awake_none P N d e d' Hs Hr Hh HA) as (dm & d1 & a & b & HI & Hsame & Hk & Ht & Ea & Hpa & Hol & Eo & Ed & Ef).
  destruct Hsame as (S1 & S2 & S3 & S4 & S5 & S6 & S7 & S8 & S9 & S10 & S11 & S12). destruct Hk as ((K1 & K2 & K3 & K4 & K5 & K6) & K7).
  destruct (Sim7ExtraProps.s7_query_output dm d1 HI Eo) as [Q1 Q2]; try congruence; [rewrite Ef; assumption|lia|]. split.
  - destruct Hr as ((oo & Eop) & _). destruct Hs as (_ & _ & _ & _ & _ & _ & Hio & _). unfold call_io in Hio. rewrite Eop in Hio. destruct Hio as [_ ->].
    rewrite Ea. unfold acts_put. cbn [map concat]. rewrite Hpa, app_nil_r. cbn [app].
    refine (olab_put _ _ _ _ _ _ _ _ dm d1 b [] _ _ Hol Q1). intros v Hv. destruct (olab_io (s7_shape P) _ _ _ Hv) as (ev & T1 & _ & T2 & _). eauto.
  - rewrite Ed, Q2. cut (s7_awake dm /\ rssi dm = INT16_MAX /\ idbuf (ext dm) = idbuf (ext d) /\ sst dm = sst d /\ fIp (fl dm) = fIp (fl d) /\ s7_params dm = s7_params d /\ s7_address dm = s7_address d).
    { intros (C1 & C2 & C3 & C4 & C5 & C6 & C7). unfold s7_gauge. splits; auto. }
    destruct HA as (A1 & A2 & A3). unfold s7_awake, s7_params, s7_address in *. rewrite S6, K1, K4, K5, K6. splits; auto; congruence.
Qed.

(** The strength only changes while an answer is awaited. *)
Lemma s7_rssi_kept : forall P N d e d', s7_step P d e d' -> roomy N d e -> s7_awake d -> rst d = R7Ok -> rssi d' = rssi d.
Proof.
  intros P N d e d' Hs ((oo & Eo) & Ht) (H1 & H2 & H3) Hr0.
  destruct (s7_parts P d e d' oo Hs Eo H1 H3 H2) as (d1 & Hd & a & d2 & r & Hi & [HI Hx] & Hr).
  assert (H : rssi d2 = rssi d).
  { destruct a; try (destruct Hx as (_ & _ & _ & _ & X & _); exact X). destruct Hx as [_ Hx]. apply s7_line_effect in Hx. unfold s7_effect in Hx. change (rst (during (e_sch e) d)) with (rst d) in Hx. rewrite Hr0 in Hx.
    destruct (s7_refused _ _); destruct Hx as (X & _); exact X. }
  rewrite Hd. destruct Hr as [(_ & -> & _)|(b & _ & Hol & Hox)]; [exact H|]. destruct (s7_out_effect _ _ _ Hol Hox) as (E1 & _). change (rssi d1 = rssi d). congruence.
Qed.

(** Between the parts of a session, requestRSSI() makes the next run() send AT+CSQ, once;
    getRSSI() then returns the value in the answer, in dBm, and the session can go on. *)
Theorem C82_sim7_measured : forall P N c n d e d1 tr d2, s7_between c d -> s7_step P d e d1 -> e_op e = OpRequestRSSI -> (0 <= n < 2147483648)%Z ->
  dialogue (s7_step P) s7_dither N (s7_csq_replies n) d1 tr d2 -> 20 <= N ->
  sent tr = commands [bs "AT+CSQ"] /\ s7_between c d2 /\ s7_params d2 = s7_params d /\ s7_address d2 = s7_address d /\ rbuf d2 = rbuf d /\ idbuf (ext d2) = idbuf (ext d) /\ payloads (e :: tr) = [] /\
  forall e' d3, s7_step P d2 e' d3 -> e_op e' = OpGetRSSI -> e_out e' = DNum (dbm n).
Proof.
  intros P N c n d e d1 tr d2 HB Hs Eo Hn Hd HN. pose proof (s7_between_calm c d HB) as HC. pose proof HB as (R & F1 & F2 & F3 & F4 & F5 & F6 & Fm & F7 & F8 & F9). pose proof (empty_avail _ F8 F9) as F10.
  assert (G : s7_going d /\ wait d = None /\ rst d = R7Ok /\ (sst d = S7Connected \/ sst d = S7NotConnected)) by (destruct c; [destruct R as (R1 & _ & _ & R2 & R3 & R4)|destruct R as (R1 & R2 & R3 & R4 & _)]; auto).
  destruct G as ((G1 & G2 & G3 & G4 & G5) & Gw & Gr & Gs).
  destruct (call_silent _ _ _ _ _ _ _ _ _ _ _ Hs ltac:(rewrite Eo; reflexivity)) as [Pe _].
  pose proof Hs as (_ & _ & _ & E & _). rewrite Eo in E. destruct (called _ _ _ _ _ _ _ E) as (z & x & Ex & Ed). cbn [d_call] in Ex. apply ok_inj in Ex. apply pair_eq in Ex as [_ <-].
  assert (C1 : s7_calm (rbuf d) (Some (wbuf d)) false false d1) by (rewrite Ed; exact HC).
  assert (S1 : s7_awake d1 /\ rssi d1 = INT16_MAX /\ wait d1 = None /\ rst d1 = R7Ok /\ fLine (fl d1) = true /\ fDisc (fl d1) = false) by (unfold s7_awake; rewrite Ed; splits; auto). destruct S1 as (S1 & S2 & S3 & S4 & S5 & S6).
  assert (Q1 : s7_params d1 = s7_params d /\ s7_address d1 = s7_address d /\ sst d1 = sst d /\ fIp (fl d1) = fIp (fl d) /\ idbuf (ext d1) = idbuf (ext d)) by (rewrite Ed; splits; reflexivity).
  assert (Hharm : forall L, s7_dither L -> s7_harmless L).
  { intros L [[HL _] _]. apply s7_noise_inv in HL as (L1 & L2 & L3 & L4 & L5 & L6 & L7). unfold s7_harmless.
    pose proof (no_prefix (bs "+NETOPEN") (bs ": 1") L L2) as Y1. pose proof (no_prefix (bs "+CIPOPEN") (bs ": 0,") L L3) as Y2. pose proof (no_prefix (bs "+CDNSGIP") (bs ": 0") L L5) as Y3.
    splits; auto. intro Z. change (bs "+CIPOPEN" ++ bs ": 0,") with (bs "+CIPOPEN: 0,") in Y2. congruence. }
  assert (Hansw : forall L, prefixb (csq_text n) L = true -> s7_harmless L).
  { intros L HL. destruct (csq_text_calm n L HL) as [_ G]. unfold s7_harmless. splits; try (apply G; reflexivity). intro Z. rewrite (G "+CIPOPEN: 0,"%string) in Z by reflexivity. discriminate Z. }
  assert (Hlook : forall x e x', s7_step P x e x' -> looks (e_op e) = true -> s7_calm (rbuf d) (Some (wbuf d)) false false x -> s7_calm (rbuf d) (Some (wbuf d)) false false x' /\ payload e = []).
  { intros x e0 x' H1 H2 H3. destruct (s7_looks P x e0 x' H1 H2) as (-> & _ & H4). split; [exact H3|exact H4]. }
  assert (Hkeep : s7_calm (rbuf d) (Some (wbuf d)) false false d2 /\ payloads tr = []).
  { refine (dialogue_keeps _ s7_dither s7_harmless N _ Hharm Hlook _ _ d1 tr d2 Hd _ C1).
    - intros x e0 x' H1 H2 H3 H4. exact (s7_calm_run P N _ _ _ _ x e0 x' H1 H2 H3 H4).
    - unfold s7_csq_replies. repeat (apply Forall_cons); [exact I|exact Hansw| |apply Forall_nil]. intros L HL. apply (s7_reply_harmless "OK"); [cbn; tauto|exact HL]. }
  destruct Hkeep as [C2 Pt]. unfold s7_csq_replies in Hd.
  (* the query is sent *)
  destruct (dialogue_next (s7_step P) s7_dither N None [reply (csq_text n); reply (bs "OK")] d1 tr d2 (fun x => exists y, x = set_io y d1)) with (3 := Hd) as (tr1 & e1 & tr2 & x1 & x2 & E1 & T1 & (y1 & ->) & Hs1 & Hr1 & Hh1 & Hd1).
  { intros x e0 x' H1 H2 (y & ->). destruct (s7_looks P _ e0 x' H1 H2) as (-> & H3 & _). split; [eexists; reflexivity|exact H3]. }
  { discriminate. }
  { exists (io d1). destruct d1; reflexivity. }
  destruct (s7_measures P N (set_io y1 d1) e1 x2 Hs1 Hr1 Hh1 HN S1 S2 S3 S4 S5 S6) as [T2 H2].
  change (ext (set_io y1 d1)) with (ext d1) in H2. change (s7_gauge d1 (idbuf (ext d1)) x2) in H2. set (b := idbuf (ext d1)) in *.
  assert (C3 : s7_calm (rbuf d) (Some (wbuf d)) false false x2) by exact (proj1 (s7_calm_run P N _ _ _ _ (set_io y1 d1) e1 x2 Hs1 Hr1 (or_introl Hh1) C1)).
  (* the answer *)
  assert (Hok : Some (bs "OK") <> None) by discriminate.
  destruct (dialogue_next (s7_step P) s7_dither N (reply (csq_text n)) [reply (bs "OK")] x2 tr2 d2 (fun x => s7_gauge d1 b x /\ s7_calm (rbuf d) (Some (wbuf d)) false false x)) with (3 := Hd1) as (tr3 & e2 & tr4 & x3 & x4 & E2 & T3 & (H3 & C4) & Hs2 & Hr2 & Hh2 & Hd2).
  { intros x e0 x' K1 K2 [K3 K4]. destruct (s7_looks P x e0 x' K1 K2) as (-> & K5 & _). split; [split; [exact K3|exact K4]|exact K5]. }
  { intros p Hp x e0 x' K1 K2 K3 [K4 K5]. destruct K3 as [K3|(tk & L & I1 & I2 & _)].
    - destruct (s7_gauge_none P N d1 b x e0 x' K1 K2 K3 K4) as [A1 A2]. split; [split; [exact A1|]|exact A2]. exact (proj1 (s7_calm_run P N _ _ _ _ x e0 x' K1 K2 (or_introl K3) K5)).
    - assert (K3 : hears (Some s7_dither) e0) by (exists tk, L; auto). destruct (s7_gauge_dither P N d1 b x e0 x' K1 K2 K3 K4) as [A1 A2]. split; [split; [exact A1|]|exact A2].
      refine (proj1 (s7_calm_run P N _ _ _ _ x e0 x' K1 K2 (or_intror _) K5)). exists tk, L. auto. }
  { split; assumption. }
  destruct (s7_gauge_answer P N d1 b n x3 e2 x4 Hs2 Hr2 Hh2 Hn H3) as (H4 & R4 & T4).
  assert (C5 : s7_calm (rbuf d) (Some (wbuf d)) false false x4).
  { refine (proj1 (s7_calm_run P N _ _ _ _ x3 e2 x4 Hs2 Hr2 (or_intror _) C4)). destruct Hh2 as (tk & L & I1 & I2). exists tk, L. auto. }
  (* OK *)
  destruct (dialogue_next (s7_step P) s7_dither N (reply (bs "OK")) [] x4 tr4 d2 (fun x => (s7_stage d1 (Some (bs "OK")) R7Ok b x /\ rssi x = dbm n) /\ s7_calm (rbuf d) (Some (wbuf d)) false false x)) with (3 := Hd2) as (tr5 & e3 & tr6 & x5 & x6 & E3 & T5 & ((H5 & R5) & C6) & Hs3 & Hr3 & Hh3 & Hd3).
  { intros x e0 x' K1 K2 [K3 K4]. destruct (s7_looks P x e0 x' K1 K2) as (-> & K5 & _). split; [split; [exact K3|exact K4]|exact K5]. }
  { intros p Hp x e0 x' K1 K2 K3 [[K4 Kr] K5]. destruct K3 as [K3|(tk & L & I1 & I2 & _)].
    - destruct (s7_stage_none P N d1 (Some (bs "OK")) R7Ok b x e0 x' K1 K2 K3 (or_introl Hok) K4) as [A1 A2]. split; [split; [split; [exact A1|]|]|exact A2].
      + rewrite (s7_rssi_kept P N x e0 x' K1 K2 (proj1 K4) ltac:(apply K4)). exact Kr.
      + exact (proj1 (s7_calm_run P N _ _ _ _ x e0 x' K1 K2 (or_introl K3) K5)).
    - assert (K3 : hears (Some s7_murmur) e0) by (exists tk, L; destruct I2; auto). destruct (s7_stage_noise P N d1 _ x e0 x' K1 K2 K3 K4) as [A1 A2]. split; [split; [split; [exact A1|]|]|exact A2].
      + rewrite (s7_rssi_kept P N x e0 x' K1 K2 (proj1 K4) ltac:(apply K4)). exact Kr.
      + refine (proj1 (s7_calm_run P N _ _ _ _ x e0 x' K1 K2 (or_intror _) K5)). exists tk, L. auto. }
  { split; [split; assumption|assumption]. }
  destruct C6 as (_ & _ & _ & _ & _ & _ & D1 & _ & _ & _ & _ & _ & _ & _ & _ & _ & D2 & D3 & D4). destruct (D2 _ eq_refl) as (W1 & W2 & _).
  destruct Q1 as (Q1 & Q2 & Q3 & Q4 & Q5).
  destruct (s7_stage_done P N d1 b x5 e3 x6 Hs3 Hr3 Hh3 H5) as (H6 & T6 & H6c); try lia; auto; try congruence.
  { destruct D4 as [[D4 _]|D4]; [discriminate D4|exact D4]. } { destruct D3 as [[D3 _]|D3]; [discriminate D3|exact D3]. }
  assert (R6 : rssi x6 = dbm n) by (rewrite (s7_rssi_kept P N x5 e3 x6 Hs3 Hr3 (proj1 H5) ltac:(apply H5)); exact R5).
  destruct (dialogue_end (s7_step P) s7_dither N x6 tr6 d2 (fun x => s7_stage d1 None R7Ok b x /\ cst x = cst x6 /\ rssi x = dbm n)) as (T7 & HE & H7 & R7); [|exact Hd3|splits; [exact H6|reflexivity|exact R6]|].
  { intros x e0 x' K1 K2 [K3 K4]. destruct (s7_looks P x e0 x' K1 K2) as (-> & K5 & _). split; [split; [exact K3|exact K4]|exact K5]. }
  destruct HE as (U0 & U1 & U2 & U3 & U4 & U5 & U6 & U7 & U8). destruct C2 as (_ & _ & _ & M1 & M2 & M3 & M4 & M5 & _ & _ & _ & M6 & _ & _ & _ & _ & M7 & M8 & M9). destruct (M7 _ eq_refl) as (W3 & _).
  assert (Hb : no_request b) by (rewrite Q5; exact G5).
  assert (Hg : s7_going d2) by (unfold s7_going; destruct U0 as (U0 & U0' & U0''); rewrite U4; splits; auto).
  splits.
  - rewrite E1, sent_app, T1, sent_cons, T2, E2, sent_app, T3, sent_cons, T4, E3, sent_app, T5, sent_cons, T6, T7. reflexivity.
  - unfold s7_between. rewrite M5, W3. splits; auto; [|destruct M8 as [[M8 _]|M8]; [discriminate M8|exact M8]|destruct M9 as [[M9 _]|M9]; [discriminate M9|exact M9]].
    destruct c; [destruct R as (_ & _ & V2 & V3 & _)|destruct R as (_ & V3 & _ & _ & V2)].
    + unfold s7_at_ease, ip_is_connected. rewrite H7, H6c by congruence. splits; auto; congruence.
    + unfold s7_at_rest. splits; auto; try congruence. destruct M9 as [[M9 _]|M9]; [discriminate M9|exact M9].
  - congruence.
  - congruence.
  - exact M5.
  - rewrite U4. exact Q5.
  - rewrite payloads_cons, Pe, Pt. reflexivity.
  - intros e' d3 Hs4 Eo4. pose proof Hs4 as (_ & _ & _ & E4 & _). rewrite Eo4 in E4. destruct (called _ _ _ _ _ _ _ E4) as (z4 & x7 & Ex & _). cbn [d_call] in Ex. apply ok_inj in Ex. apply pair_eq in Ex as [<- _].
    change (DNum (rssi d2) = DNum (dbm n)). rewrite R7. reflexivity.
Qed.

Definition s7_asks_csq : @script simop := [call OpRequestRSSI].
Definition s7_csq_answers : @script simop := runs_ 1 ++ dialog [crlf (bs ""); crlf (bs "+CREG: 1")] ++ [modem (bs "+CSQ: 1")] ++ dialog [crlf (bs "7,99"); crlf (bs ""); crlf (bs "OK")].
Definition s7_csq_check : list (option (bytes -> bool)) := [None; Some (prefixb (bs "+CSQ: 17,")); Some (prefixb (bs "OK"))].
Example C82_sim7_measured_case : exists d0 tr0 d e d1 tr d2 e' d3, s7_built d0 /\ s7_hist PA d0 tr0 d /\ s7_between false d /\
  s7_step PA d e d1 /\ e_op e = OpRequestRSSI /\ dialogue (s7_step PA) s7_dither 64 (s7_csq_replies 17) d1 tr d2 /\
  s7_step PA d2 e' d3 /\ e_op e' = OpGetRSSI /\ sent tr = crlf (bs "AT+CSQ") /\ e_out e' = DNum (-79).
Proof.
  destruct s7_ex_built as (d0 & E0 & Hb).
  set (h := s7_prepare ++ s7_asks_csq ++ s7_csq_answers ++ [call OpGetRSSI]).
  assert (Hrun : exists d outs, d_run (s7_driver PA) d0 h = Ok (d, outs)).
  { assert (H : then_ (s7_driver PA) s7_ex h (fun _ => true) = true) by (vm_compute; reflexivity). unfold then_ in H. rewrite E0 in H.
    destruct (d_run (s7_driver PA) d0 h) as [[d outs]|u]; [eauto|discriminate H]. }
  destruct Hrun as (d3 & outs & Hrun).
  assert (Hv : s7_valid h). { apply (validb_ok _ (fun x => match x with SetApn p => strb p | _ => true end)); [intros [] H; try exact I; apply strb_ok, H|vm_compute; reflexivity]. }
  destruct (s7_every_run PA d0 h d3 outs Hb Hv Hrun) as (tra & Ha & Em & _). unfold h in Em.
  destruct (hist_part _ _ _ _ _ _ _ _ _ Ha Em) as (tr0 & trb & d & o1 & _ & M0 & Mb & H0 & Hb1 & R1).
  destruct (hist_part _ _ _ _ _ _ _ _ _ Hb1 Mb) as (tre & trc & d1 & o2 & _ & Me & Mc & He & Hc1 & R2).
  destruct (hist_one _ _ _ _ _ _ _ _ _ He Me) as (e & tre' & d1' & -> & Eo & _ & Me' & Hs & He' & _). apply map_eq_nil in Me'. subst tre'. inversion He'; subst. clear He'.
  destruct (hist_part _ _ _ _ _ _ _ _ _ Hc1 Mc) as (tr & trd & d2 & o3 & _ & Mt & Md & Ht & Hd1 & R3).
  destruct (hist_one _ _ _ _ _ _ _ _ _ Hd1 Md) as (e' & trd' & d3' & -> & Eo' & _ & Md' & Hs' & Hd' & _). apply map_eq_nil in Md'. subst trd'. inversion Hd'; subst. clear Hd'.
  assert (C1 : then_ (s7_driver PA) s7_ex s7_prepare (fun x => match d_run (s7_driver PA) x s7_asks_csq with
    Ok (y, _) => talks (s7_driver PA) (fun L => silentb s7_quiet_words L && no_idb L && negb (prefixb (bs "+CSQ: ") L)) (fun _ => true) 64 s7_csq_check s7_csq_answers y | _ => false end) = true) by (vm_compute; reflexivity).
  apply (then_at _ _ _ _ _ _ _ _ _ _ _ E0 R1) in C1. cbv beta in C1. rewrite R2 in C1.
  assert (HB : s7_between false d).
  { refine (proj1 (C79_sim7_prepared PA false d0 tr0 d (proj1 (C79_sim7_fresh d0 Hb _)) H0 _)).
    - clear -E0. assert (H : then_ (s7_driver PA) s7_ex [] (fun x => isopen x) = true) by (vm_compute; reflexivity). unfold then_ in H. rewrite E0 in H. exact H.
    - apply Forall_forall. intros x Hx. assert (Hi : In (e_op x, e_sch x) s7_prepare) by (rewrite <- M0; exact (in_map (fun e => (e_op e, e_sch e)) tr0 x Hx)).
      destruct Hi as [Hi|[Hi|[]]]; injection Hi as <- _; reflexivity. }
  assert (HD : dialogue (s7_step PA) s7_dither 64 (s7_csq_replies 17) d1 tr d2).
  { rewrite <- Mt in C1. refine (dialogue_same _ _ _ _ _ _ _ _ _ _ _ (talks_dialogue (s7_driver PA) (s7_shape PA) s7_all s7_goodx s7_dither (fun L => silentb s7_quiet_words L && no_idb L && negb (prefixb (bs "+CSQ: ") L)) _ (fun _ => true) _ 64 tr d1 d2 Ht _ C1) _ _).
    - intros L HL. apply andb_prop in HL as [HL HL3]. apply andb_prop in HL as [HL1 HL2]. apply negb_true_iff in HL3. split; [|exact HL3]. split; [apply (proj1 (silentb_ok _ L)), HL1|]. unfold no_idb in HL2. destruct (id_reply L); [discriminate HL2|reflexivity].
    - intros x _. split; [exact whole_ends|intros L H; exact H].
    - apply Forall2_cons; [exact I|]. apply Forall2_cons; [intro; apply iff_refl|]. apply Forall2_cons; [intro; apply iff_refl|apply Forall2_nil]. }
  cbn [fst call] in Eo, Eo'. assert (Hlt : 20 <= 64) by lia.
  destruct (C82_sim7_measured PA 64 false 17 d e d1 tr d2 HB Hs Eo ltac:(lia) HD Hlt) as (Z1 & _ & _ & _ & _ & _ & _ & Z2).
  exists d0, tr0, d, e, d1, tr, d2, e', d3. splits; auto.
  rewrite (Z2 e' d3 Hs' Eo'). reflexivity.
Qed.

Print Assumptions C82_sim7_measured.
