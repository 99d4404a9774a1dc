(** C79 for the SIM7x00 driver. *)
From Coq Require Import String Ascii ZArith List Bool Arith Lia ZifyBool ZifyNat.
From Verif Require Import Base QueueSpec LineSpec SerialSpec Ring RingProofs LineRing LineRingProofs Serial SerialProofs
  SerStep TaskMacros CStr CStrProofs Dev DevProofs DevProps SimDev SimProofs SimSpec SimParse SimLog Sym DrvStep DrvCommon DrvRun DrvHist DrvActs DrvHand SimHand DrvSend DrvFetch DrvTalk DrvSession Session HandCheck
  Sim7x00 Sim7Spec Sim7Proofs Sim7Ctl Sim7CtlIn Sim7Run Sim7Hist Sim7Thms Sim7More Sim7Line Sim7Req Sim7Rest Sim7Stuck Sim7Hand Sim7Send Sim7Fetch Sim7Session Sim7Props Sim7HandProps Sim7SendProps Sim7FetchProps.
Import ListNotations.
Local Open Scope nat_scope.
Ltac Zify.zify_post_hook ::= Z.div_mod_to_equations.
Local Notation dv := (dev s7send s7reply simx).
Local Notation ent := (@entry simop).

(** What the program and the module do together, [N] bytes being free in the port's transmit buffer
    whenever run() is called. *)
Inductive s7_deal (P : plat) (N : nat) : dv -> deal -> list ent -> dv -> Prop :=
| sd_connect d e d1 tr d' a ok_first : s7_step P d e d1 -> e_op e = OpConnect -> e_out e = DBool true ->
    20 + length (text (host d)) <= N -> Forall (fun q => length q + 2 <= N) (s7_opening (apn (ext d)) (host d) a (typ d) (port d)) ->
    dialogue (s7_step P) s7_noise N (s7_open_replies a ok_first) d1 tr d' -> s7_deal P N d (Connect a) (e :: tr) d'
| sd_write d e d1 tr d' data n k : s7_step P d e d1 -> e_op e = OpWrite data n -> n <= length data -> e_out e = DCount k -> 0 < k ->
    22 + k <= N -> (Z.of_nat k < 100000)%Z -> length (announcement true k (s7_send_tail (typ d) (s7_address d) (port d))) <= N ->
    dialogue (s7_step P) s7_noise N s7_send_replies d1 tr d' -> s7_deal P N d (Write (firstn k data)) (e :: tr) d'
| sd_fetch d n ms tr1 d1 tr2 d2 tr3 d3 : dialogue (s7_step P) s7_hum N (s7_fetch_replies P n) d tr1 d1 -> chunks (s7_step P) s7_hum N (s7_header P) d1 ms tr2 d2 ->
    dialogue (s7_step P) s7_hum N (s7_fetched_replies P) d2 tr3 d3 ->
    (0 < n < 2147483648)%Z -> Forall (fun m => (0 < m)%Z) ms -> fold_right Z.add 0%Z ms = n ->
    (Z.of_nat (avail (rbuf d)) + n <= Z.of_nat (rsize (rbuf d)))%Z -> 8 < rxsz (io d) -> s7_deal P N d (Fetch n) (tr1 ++ tr2 ++ tr3) d3
| sd_read d e d' n b k : s7_step P d e d' -> e_op e = OpRead n -> e_out e = DData b k -> s7_deal P N d (Read b) [e] d'
| sd_look d e d' : s7_step P d e d' -> looks (e_op e) = true -> s7_deal P N d Idle [e] d'
| sd_idle d e d' : s7_step P d e d' -> roomy N d e -> hears None e -> s7_deal P N d Idle [e] d'
| sd_disconnect d e d1 tr d' : s7_step P d e d1 -> e_op e = OpDisconnect -> dialogue (s7_step P) s7_noise N s7_close_replies d1 tr d' ->
    s7_deal P N d Disconnect (e :: tr) d'.

(** What it makes the driver send, given APN, host, type and port, and the address of the peer. *)
Definition s7_speaks (p : cptr * cptr * Z * Z) (a : bytes) (i : deal) (q : bytes) : Prop :=
  let '(n, h, t, o) := p in
  match i with
  | Connect _ => q = commands (s7_opening n h a t o)
  | Write b => q = announcement true (length b) (s7_send_tail t a o) ++ b
  | Fetch m => exists ks, q = commands (bs "AT+CIPRXGET=4,0" :: map (fun k => bs "AT+CIPRXGET=2,0," ++ dec k) ks ++ [bs "AT+CIPRXGET=4,0"]) /\
      Forall (fun k => (k <= m)%Z /\ (k <= 1500)%Z) ks
  | Read _ | Idle => q = []
  | Disconnect => q = commands [bs "AT+NETCLOSE"]
  end.

(** Between two of them: connected or not, with nothing under way. *)
Definition s7_between (c : bool) (d : dv) : Prop :=
  (if c then s7_at_ease d else s7_at_rest d) /\ fConnect (fl d) = false /\ fDisc (fl d) = false /\ fData (fl d) = false /\ fLine (fl d) = true /\
  toReceive d = 0%Z /\ toRead d = 0%Z /\ maxrx (ext d) = 1500%Z /\ ring_ok (rbuf d) /\ ring_ok (wbuf d) /\ contents (wbuf d) = [].

(** A new driver, and setting the parameters. *)
Lemma sim_reset_maxrx : forall SS RS (s0 : SS) (r0 : RS) d d', sim_reset_states s0 r0 d = Ok d' -> maxrx (ext d') = maxrx (ext d).
Proof.
  intros SS RS s0 r0 d d' E. unfold sim_reset_states in E. destruct (at_reset_states s0 r0 99 d) as [x|] eqn:E1; [|discriminate E]. cbn [bind] in E.
  unfold at_reset_states in E1. destruct (d_flush_rx d) as [z|] eqn:E2; [|discriminate E1]. cbn [bind] in E1. apply ok_inj in E1. subst x.
  assert (Hz : ext z = ext d) by (unfold d_flush_rx in E2; crack E2; reflexivity).
  match type of E with bind ?m _ = _ => destruct m as [q|]; [|discriminate E] end. cbn [bind] in E. match type of E with bind ?m _ = _ => destruct m as [q'|]; [|discriminate E] end. cbn [bind] in E.
  apply ok_inj in E. subst d'. change (maxrx (ext z) = maxrx (ext d)). rewrite Hz. reflexivity.
Qed.
Theorem C79_sim7_fresh : forall d, s7_built d -> isopen d = true -> s7_between false d /\ contents (rbuf d) = [].
Proof.
  intros d Hb Ho. pose proof (C52_sim7_fresh d Hb Ho) as R. destruct (s7_built_fresh d Hb) as (_ & _ & _ & _ & _ & _ & E4 & _ & A1 & A2 & A3 & A4 & _ & A5 & A6 & _).
  assert (M : maxrx (ext d) = 1500%Z).
  { destruct Hb as (s & o & rb & wb & rl & ri & rd0 & rt & _ & _ & _ & _ & _ & _ & _ & _ & _ & E). rewrite s7_new_eq in E. exact (sim_reset_maxrx _ _ _ _ _ _ E). }
  split; [|exact A1]. unfold s7_between. rewrite E4. splits; auto.
Qed.

(** Setting parameters between two sessions, or during one. *)
Theorem C79_sim7_prepared : forall P c d0 tr d, s7_between c d0 -> s7_hist P d0 tr d -> Forall (fun e => s7_sets (e_op e) = true) tr ->
  s7_between c d /\ s7_params d = fold_left s7_given tr (s7_params d0) /\ rbuf d = rbuf d0.
Proof.
  intros P c d0 tr d Hr Hh. induction Hh as [d|d e d1 tr d2 Hs Hh IH]; intros HF; [auto|].
  inversion HF as [|? ? He HF']; subst. pose proof Hs as (_ & _ & _ & E & _). cbn [fold_left].
  assert (H : s7_between c d1 /\ s7_params d1 = s7_given (s7_params d) e /\ rbuf d1 = rbuf d).
  { destruct (looks (e_op e)) eqn:El.
    - rewrite (looked _ _ _ _ _ _ _ _ _ _ _ E El). split; [destruct c; exact Hr|]. unfold s7_given, s7_params. cbn [ext host typ port rbuf set_io]. destruct (e_op e); try discriminate El; split; reflexivity.
    - destruct (called _ _ _ _ _ _ _ E) as (z & x & Ex & ->). unfold s7_given. destruct (e_op e) eqn:Eo; try discriminate He; try discriminate El.
      + cbn [d_call] in Ex. injection Ex as _ <-. split; [destruct c; exact Hr|split; reflexivity].
      + match goal with o : simop |- _ => destruct o end; try discriminate He. cbn [d_call drv_x s7_driver sim_x] in Ex. injection Ex as _ <-. split; [destruct c; exact Hr|split; reflexivity]. }
  destruct H as (H1 & H2 & H3). destruct (IH H1 HF') as (H4 & H5 & H6). split; [exact H4|]. rewrite H5, H2, H6, H3. split; reflexivity.
Qed.

(** A run() at rest. *)
Lemma s7_stays : forall P N d e d', s7_step P d e d' -> roomy N d e -> hears None e -> s7_at_rest d -> 20 <= N -> fConnect (fl d) = false ->
  put (e_ev e) = [] /\ s7_at_rest d' /\ s7_params d' = s7_params d.
Proof.
  intros P N d e d' Hs Hr Hh (Hg & Es & Hw & Hrs & Hdi) HN Hc.
  destruct (s7_ready P N None d e d' _ Hs Hr Hh Hg (f7_none d Hw Hrs) HN) as (dm & d1 & y & HI & G & W & R & S & Pm & _ & (_ & F1 & F2 & _) & _ & _ & Q & Em & -> & Hp).
  unfold s7_machine in Em. cbn [sst set_io] in Em. rewrite S, Es in Em. unfold at_handle_connect in Em. cbn [fl set_io set_cst dev_set_delay set_tsk] in Em. rewrite F1, Hc in Em. apply ok_inj in Em. subst d1.
  cbn [snd] in *. split; [apply Hp, quiet_ioeff; exact Q|]. split; [|exact Pm]. unfold s7_at_rest. split; [exact G|]. split; [cbn; congruence|]. split; [exact W|]. split; [exact R|]. cbn. congruence.
Qed.

Lemma s7_looks : forall P x e x', s7_step P x e x' -> looks (e_op e) = true -> x' = set_io (io x') x /\ put (e_ev e) = [] /\ payload e = [].
Proof.
  intros P x e x' Hs Hl. destruct (s7_look P x e x' Hs Hl) as [A B]. splits; auto.
  apply (call_silent _ _ _ _ _ _ _ _ _ _ _ Hs). destruct (e_op e); try discriminate Hl; reflexivity.
Qed.

Lemma s7_deal_dialogue : forall P N r w x y ps d tr d', dialogue (s7_step P) s7_noise N ps d tr d' ->
  Forall (fun p : option (bytes -> Prop) => match p with Some q => forall L, q L -> s7_harmless L | None => True end) ps ->
  s7_calm r w x y d -> s7_calm r w x y d' /\ payloads tr = [].
Proof.
  intros P N r w x y ps d tr d' Hd HF HK.
  refine (dialogue_keeps _ s7_noise (s7_harmless) N (s7_calm r w x y) _ _ _ ps d tr d' Hd HF HK).
  - intros L HL. apply s7_noise_inv in HL as (L1 & L2 & L3 & L4 & L5 & L6 & L7). unfold s7_harmless.
    pose proof (no_prefix (bs "+NETOPEN") (bs ": 1") L L2) as Y1. pose proof (no_prefix (bs "+CIPOPEN") (bs ": 0,") L L3) as Y2. pose proof (no_prefix (bs "+CDNSGIP") (bs ": 0") L L5) as Y3.
    splits; auto. intro Z. cbn [bs app String.append] in *. change (bs "+CIPOPEN" ++ bs ": 0,") with (bs "+CIPOPEN: 0,") in Y2. congruence.
  - intros z e z' Hs Hl Hz. destruct (s7_look P z e z' Hs Hl) as [-> _]. split; [apply s7_calm_io; exact Hz|].
    apply (call_silent _ _ _ _ _ _ _ _ _ _ _ Hs). destruct (e_op e); try discriminate Hl; reflexivity.
  - intros z e z' Hs Hr Hh Hz. exact (s7_calm_run P N r w x y z e z' Hs Hr Hh Hz).
Qed.

Lemma s7_reply_harmless : forall w L, In w ["OK"; ">"; "+NETOPEN: 0"; "+CIPOPEN: 0,0"; "+NETCLOSE: 0"; "+CDNSGIP: 1"]%string -> prefixb (bs w) L = true -> s7_harmless L.
Proof.
  intros w L Hw HL. unfold s7_harmless. apply prefixb_spec in HL as [t ->]. cbn [In] in Hw. repeat destruct Hw as [<-|Hw]; try contradiction; splits; try reflexivity; intro Z; first [discriminate Z|reflexivity].
Qed.

Ltac meek := cbn [app repeat]; repeat (apply Forall_cons; [first [exact I|
  let L := fresh in let HL := fresh in intros L HL; first [apply (s7_reply_harmless "OK"); [cbn; tauto|exact HL]|apply (s7_reply_harmless ">"); [cbn; tauto|exact HL]
    |apply (s7_reply_harmless "+NETOPEN: 0"); [cbn; tauto|exact HL]|apply (s7_reply_harmless "+CIPOPEN: 0,0"); [cbn; tauto|exact HL]|apply (s7_reply_harmless "+NETCLOSE: 0"); [cbn; tauto|exact HL]
    |apply (s7_reply_harmless "+CDNSGIP: 1"); [cbn; tauto|exact (proj1 (proj1 HL))]]]|]); apply Forall_nil.

Lemma s7_between_calm : forall c d, s7_between c d -> s7_calm (rbuf d) (Some (wbuf d)) false false d.
Proof.
  intros c d (R & F1 & F2 & F3 & F4 & F5 & F6 & Fm & F7 & F8 & F9). pose proof (empty_avail _ F8 F9) as F10.
  assert (G : s7_going d /\ (sst d = S7Connected \/ sst d = S7NotConnected) /\ rst d = R7Ok) by (destruct c; [destruct R as (R1 & _ & _ & R2 & _ & R3)|destruct R as (R1 & R2 & _ & R3 & _)]; auto).
  destruct G as [(G1 & G2 & G3 & _) [G G4]]. unfold s7_calm. splits; auto; try (rewrite G4; discriminate); try (destruct G as [->| ->]; discriminate).
  intros v Ev. injection Ev as <-. splits; auto. destruct G as [->| ->]; discriminate.
Qed.

(** One of them. *)
Theorem C79_sim7_deal : forall P N c a i c1 d tr d1, follows c i = Some c1 -> s7_deal P N d i tr d1 -> s7_between c d -> (c = true -> s7_address d = a) -> 40 <= N ->
  s7_between c1 d1 /\ (c1 = true -> s7_address d1 = reached a i) /\ s7_speaks (s7_params d) (reached a i) i (sent tr) /\
  reads i ++ contents (rbuf d1) = contents (rbuf d) ++ payloads tr /\ Z.of_nat (length (payloads tr)) = fetched i /\ s7_params d1 = s7_params d.
Proof.
  intros P N c a i c1 d tr d1 Hf Hd HB HA HN. pose proof (s7_between_calm c d HB) as HC. pose proof HB as (R & F1 & F2 & F3 & F4 & F5 & F6 & Fm & F7 & F8 & F9). pose proof (empty_avail _ F8 F9) as F10. unfold s7_speaks, s7_params at 1.
  destruct Hd as [d e d1 tr d' a' ok Hs Eo Eb HO1 HO Hd|d e d1 tr d' data n k Hs Eo Hn Ek Hk H1 H2 H3 Hd|d n ms tr1 d1 tr2 d2 tr3 d3 Hd1 Hd2 Hd3 Hn Hms Hsum Hfit Hrx|d e d' n b k Hs Eo Ek|d e d' Hs Hl|d e d' Hs Hr Hh|d e d1 tr d' Hs Eo Hd].
  - destruct c; [discriminate Hf|]. injection Hf as <-.
    destruct (C52_sim7_opens P N a' ok d e d1 tr d' R Hs Eo Eb Hd HO1 HO) as (A1 & A2 & A3 & A4 & A5).
    destruct (call_silent _ _ _ _ _ _ _ _ _ _ _ Hs ltac:(rewrite Eo; reflexivity)) as [Hp Hq].
    assert (K : s7_calm (rbuf d) (Some (wbuf d)) true false d1).
    { pose proof Hs as (_ & _ & _ & E & _). rewrite Eo in E. destruct (C31_connect_sim7 P _ _ _ _ _ E) as (b & Ebo & _ & Ed). rewrite Eb in Ebo. injection Ebo as <-. rewrite Ed.
      destruct HC as (K1 & K2 & K3 & K4 & K5 & K6 & K7 & K8 & K9 & K10 & K10' & Kx & K11 & K12 & K13 & K13' & K14 & K15 & K16). unfold s7_calm. cbn. splits; auto. left. split; [reflexivity|apply R]. }
    destruct (s7_deal_dialogue P N (rbuf d) (Some (wbuf d)) true false _ d1 tr d' Hd) as [K2 Hpl]; [|exact K|].
    { unfold s7_open_replies. destruct ok; meek. }
    destruct K2 as (_ & _ & _ & C1 & C2 & C3 & C4 & C5 & _ & _ & _ & Cm & _ & _ & _ & _ & C6 & C7 & C8). destruct (C6 _ eq_refl) as (W1 & W2 & W3).
    rewrite payloads_cons, Hp, Hpl, sent_cons, Hq, A1, C5. cbn [app reads fetched length]. rewrite app_nil_r. splits; auto.
    unfold s7_between. rewrite C5, W1. splits; auto; [destruct C7 as [[_ C7]|C7]; [|exact C7]; exfalso; destruct A3 as (_ & _ & _ & A3 & _); congruence|destruct C8 as [(C8 & _)|C8]; [discriminate C8|exact C8]].
  - destruct c; [|discriminate Hf]. injection Hf as <-.
    pose proof Hs as (_ & _ & _ & E & _). rewrite Eo in E. destruct (C31_write _ _ _ _ _ _ _ _ _ _ _ _ F8 Hn E) as (Ek2 & Ec & Eok & Ed). rewrite Ek in Ek2. injection Ek2 as Ek2.
    assert (Hl : length (firstn k data) = k) by (apply firstn_length_le; destruct (cst d); lia).
    destruct (C70_sim7_sends P N d e d1 tr d' data n k R F2 F3 F8 F9 Hs Eo Hn Ek Hk Hd H1 H2 H3) as (A1 & A2 & A3 & A4 & A5 & A6 & A7 & A8 & A9).
    destruct (call_silent _ _ _ _ _ _ _ _ _ _ _ Hs ltac:(rewrite Eo; reflexivity)) as [Hp Hq].
    assert (K : s7_calm (rbuf d) None false false d1).
    { rewrite Ed. destruct HC as (K1 & K2 & K3 & K4 & K5 & K6 & K7 & K8 & K9 & K10 & K10' & Kx & K11 & K12 & K13 & K13' & K14 & K15 & K16). unfold s7_calm. cbn. splits; auto. discriminate. }
    destruct (s7_deal_dialogue P N (rbuf d) None false false _ d1 tr d' Hd) as [K2 Hpl]; [|exact K|].
    { unfold s7_send_replies. meek. }
    destruct K2 as (_ & _ & _ & C1 & C2 & C3 & C4 & C5 & _ & _ & _ & Cm & _ & _ & _ & _ & C6 & C7 & C8).
    rewrite payloads_cons, Hp, Hpl, sent_cons, Hq, A1, C5. cbn [app reads fetched length]. rewrite app_nil_r, Hl. cbn [reached]. rewrite <- (HA eq_refl). splits; auto.
    unfold s7_between. rewrite C5. splits; auto. destruct C7 as [[C7 _]|C7]; [discriminate C7|exact C7].
  - destruct c; [|discriminate Hf]. injection Hf as <-.
    assert (HV : s7_vacant d) by (unfold s7_vacant; splits; auto).
    destruct (C75_sim7_fetches P N n ms d tr1 d1 tr2 d2 tr3 d3 HV Hd1 Hd2 Hd3 Hn Hms Hsum Hfit Hrx HN) as (ks & A1 & A2 & A3 & A4 & A5 & A6 & A7).
    destruct A6 as (B1 & B2 & B3 & B4 & B5 & B6 & B7 & B8).
    assert (U : s7_unasked d3).
    { apply (dialogue_each _ _ N s7_unasked (s7_unasked_step P) _ _ _ _ Hd3). apply (chunks_each _ _ N _ s7_unasked (s7_unasked_step P) _ _ _ _ Hd2). apply (dialogue_each _ _ N s7_unasked (s7_unasked_step P) _ _ _ _ Hd1). exact F1. }
    rewrite A1, A4. cbn [reads fetched app]. apply pair_eq in A7 as [A7 D6]. apply pair_eq in A7 as [A7 D5]. apply pair_eq in A7 as [A7 D4]. apply pair_eq in A7 as [A7 D3]. apply pair_eq in A7 as [D1 D2].
    splits; auto.
    + unfold s7_between. rewrite D1, D2. splits; auto.
    + intros _. unfold s7_address. rewrite D1. exact (HA eq_refl).
    + exists ks. split; [reflexivity|]. rewrite Fm in A3. exact A3.
    + unfold s7_params. rewrite D1, D3, D4, D5. reflexivity.
  - pose proof Hs as (_ & _ & _ & E & _). rewrite Eo in E.
    destruct (call_silent _ _ _ _ _ _ _ _ _ _ _ Hs ltac:(rewrite Eo; reflexivity)) as [Hp Hq].
    destruct (read_keeps _ _ _ _ _ _ _ _ _ _ _ F7 E) as (Eb & Ec & Eok & Ed). rewrite Ek in Eb. injection Eb as -> _.
    assert (c1 = c) as -> by (destruct c; injection Hf as <-; reflexivity).
    cbn [payloads map concat sent]. rewrite Hp, Hq, Ec. cbn [app reads fetched length]. rewrite app_nil_r, firstn_skipn. splits; auto; [|rewrite Ed; exact HA|rewrite Ed; reflexivity].
    rewrite Ed. rewrite Ed in Eok. unfold s7_between. destruct c; splits; auto.
  - destruct (s7_look P d e d' Hs Hl) as [Ed Hq].
    destruct (call_silent _ _ _ _ _ _ _ _ _ _ _ Hs) as [Hp _]; [destruct (e_op e); try discriminate Hl; reflexivity|].
    assert (c1 = c) as -> by (destruct c; injection Hf as <-; reflexivity).
    cbn [payloads map concat sent]. rewrite Hp, Hq, Ed. cbn [app reads fetched length]. rewrite app_nil_r. splits; auto.
  - assert (c1 = c) as -> by (destruct c; injection Hf as <-; reflexivity).
    destruct (s7_calm_run P N _ _ _ _ d e d' Hs Hr (or_introl Hh) HC) as [K2 Hp].
    destruct K2 as (_ & _ & _ & C1 & C2 & C3 & C4 & C5 & _ & _ & _ & Cm & _ & _ & _ & _ & C6 & C7 & C8). destruct (C6 _ eq_refl) as (W1 & W2 & W3).
    destruct C7 as [[C7 _]|C7]; [discriminate C7|]. destruct C8 as [[C8 _]|C8]; [discriminate C8|].
    assert (A : put (e_ev e) = [] /\ (if c then s7_at_ease d' else s7_at_rest d') /\ s7_params d' = s7_params d /\ (c = true -> s7_address d' = a)).
    { destruct c.
      - destruct R as (R1 & R2 & R3 & R4 & R5 & R6). destruct (s7_settles P N None d e d' _ Hs Hr Hh R1 (f7_none d R5 R6) ltac:(lia) R4 F10 F3 F2) as (A1 & A2 & A3 & A4 & A5 & A6 & A7 & A8 & A9 & _).
        splits; auto; [|intros _; rewrite A8; exact (HA eq_refl)]. unfold s7_at_ease, ip_is_connected. rewrite A3, A9. splits; auto.
      - destruct (s7_stays P N d e d' Hs Hr Hh R ltac:(lia) F1) as (A1 & A2 & A3). splits; auto; discriminate. }
    destruct A as (A1 & A2 & A3 & A4). cbn [payloads map concat sent]. rewrite Hp, A1, C5. cbn [app reads fetched length]. rewrite app_nil_r. splits; auto.
    unfold s7_between. rewrite C5, W1. destruct c; splits; auto.
  - destruct c; [|discriminate Hf]. injection Hf as <-. pose proof R as (R1 & R2 & R3 & R4 & R5 & R6).
    destruct (C52_sim7_closes P N d e d1 tr d' R F3 F10 Hs Eo Hd ltac:(lia)) as (A1 & A2 & A3 & A4).
    destruct (call_silent _ _ _ _ _ _ _ _ _ _ _ Hs ltac:(rewrite Eo; reflexivity)) as [Hp Hq].
    pose proof Hs as (_ & _ & _ & E & _). rewrite Eo in E. apply C31_disconnect in E. assert (Hi : ip_is_idle d = false) by (unfold ip_is_idle, ip_is_connected in *; destruct (cst d); congruence). rewrite Hi in E.
    assert (K : s7_calm (rbuf d) (Some (wbuf d)) false true d1).
    { rewrite E. destruct HC as (K1 & K2 & K3 & K4 & K5 & K6 & K7 & K8 & K9 & K10 & K10' & Kx & K11 & K12 & K13 & K13' & K14 & K15 & K16). unfold s7_calm. cbn. splits; auto. left. splits; auto. discriminate. }
    unfold s7_close_replies in Hd.
    destruct (dialogue_first _ _ _ _ _ _ _ (s7_looks P) Hd) as (tr1 & e1 & tr2 & y & x2 & Et & T1 & T2 & Hs1 & Hr1 & Hh1 & Hd1). remember (set_io y d1) as x1 eqn:Ex.
    assert (Hx1 : s7_calm (rbuf d) (Some (wbuf d)) false true x1) by (rewrite Ex; exact K).
    destruct (s7_calm_run P N _ _ _ _ x1 e1 x2 Hs1 Hr1 (or_introl Hh1) Hx1) as [K2 Hp1].
    assert (Hw1 : wait x1 = None /\ rst x1 = R7Ok) by (rewrite Ex, E; auto).
    destruct (s7_leave P N x1 e1 x2 (s7_address x1) Hs1 Hr1 Hh1) as (_ & _ & L1 & _ & _ & _ & _ & L2); try exact (f7_none x1 (proj1 Hw1) (proj2 Hw1)); try (rewrite Ex, E; (exact R1 || exact R5 || exact R4 || exact R3 || exact F3 || exact F10 || reflexivity)); [lia|].
    assert (K3 : s7_calm (rbuf d) (Some (wbuf d)) false false x2).
    { destruct K2 as (M1 & M2 & M3 & M4 & M5 & M6 & M7 & M8 & M9 & M10 & M10' & Mx & M11 & M12 & M13 & M13' & M14 & M15 & M16). unfold s7_calm. splits; auto. }
    destruct (s7_deal_dialogue P N (rbuf d) (Some (wbuf d)) false false _ x2 tr2 d' Hd1) as [K4 Hpl]; [|exact K3|].
    { meek. }
    destruct K4 as (_ & _ & _ & C1 & C2 & C3 & C4 & C5 & _ & _ & _ & Cm & _ & _ & _ & _ & C6 & C7 & C8). destruct (C6 _ eq_refl) as (W1 & W2 & W3).
    rewrite payloads_cons, Hp, sent_cons, Hq, A1, C5. assert (Hpt : payloads tr = []) by (rewrite Et, payloads_app, T2, payloads_cons, Hp1, Hpl; reflexivity).
    rewrite Hpt. cbn [app reads fetched length]. rewrite app_nil_r. splits; auto; [|discriminate].
    unfold s7_between. rewrite C5, W1. splits; auto; [destruct C7 as [[C7 _]|C7]; [discriminate C7|exact C7]|destruct C8 as [(C8 & _)|C8]; [discriminate C8|exact C8]].
Qed.

(** Any number of them; [a]: the address of the peer, if connected in the beginning. *)
Theorem C79_sim7_sessions : forall P N c a d l tr d' c', session (s7_deal P N) c d l tr d' c' -> s7_between c d -> (c = true -> s7_address d = a) -> 40 <= N ->
  s7_between c' d' /\ s7_params d' = s7_params d /\ (c' = true -> s7_address d' = fold_left reached l a) /\
  (exists ss, sent tr = concat ss /\ Forall2 (fun p => s7_speaks (s7_params d) (fst p) (snd p)) (addressed a l) ss) /\
  concat (map reads l) ++ contents (rbuf d') = contents (rbuf d) ++ payloads tr /\
  Z.of_nat (length (payloads tr)) = fold_right Z.add 0%Z (map fetched l).
Proof.
  intros P N c a d l tr d' c' Hs HB HA HN.
  destruct (session_along (s7_deal P N) (fun c a x => s7_between c x /\ (c = true -> s7_address x = a) /\ s7_params x = s7_params d) (s7_speaks (s7_params d))) with (2 := Hs) (a := a) as ((A1 & A2 & A3) & A4 & A5 & A6); auto; [|splits; auto].
  clear - HN. intros c a i c1 x tr x1 Hf Hd (HB & HA & Hp).
  destruct (C79_sim7_deal P N c a i c1 x tr x1 Hf Hd HB HA HN) as (A1 & A2 & A3 & A4 & A5 & A6). rewrite Hp in A3. splits; auto. congruence.
Qed.

(** Such sessions happen: scripts for what the program and the module do, and checks by computation. *)
Definition s7_part (i : deal) : @script simop :=
  match i with
  | Connect _ => call OpConnect :: s7_answers
  | Write w => call (OpWrite w (length w)) :: s7_consents
  | Fetch _ => s7_reports ++ call (OpRun true) :: s7_gives ++ s7_ends_fetch
  | Read b => [call (OpRead (length b))]
  | Idle => [call (OpRun true)]
  | Disconnect => call OpDisconnect :: s7_ends
  end.
Definition s7_partb (i : deal) (x : dv) : bool :=
  match i with
  | Connect a => if list_eq_dec ascii_dec a (bs "1.2.3.4") then match d_step (s7_driver PA) OpConnect [] x with
      Ok (DBool true, _, y) => (20 + length (text (host x)) <=? 64) && forallb (fun c => length c + 2 <=? 64) (s7_opening (apn (ext x)) (host x) a (typ x) (port x)) &&
        talks (s7_driver PA) (silentb s7_quiet_words) (fun _ => true) 64 s7_open_check s7_answers y | _ => false end else false
  | Write w => match d_step (s7_driver PA) (OpWrite w (length w)) [] x with
      Ok (DCount k, _, y) => (k =? length w) && (0 <? k) && (22 + k <=? 64) && (Z.of_nat k <? 100000)%Z && (length (announcement true k (s7_send_tail (typ x) (s7_address x) (port x))) <=? 64) &&
        talks (s7_driver PA) (silentb s7_quiet_words) (fun _ => true) 64 s7_send_check s7_consents y | _ => false end
  | Fetch n => (n =? 5)%Z && (Z.of_nat (avail (rbuf x)) + n <=? Z.of_nat (rsize (rbuf x)))%Z && (8 <? rxsz (io x)) &&
      s7_talk [Some (prefixb (bs "+CIPRXGET: 1,0")); None; countedb PA (bs "+CIPRXGET: 4,0,") 5; Some (prefixb (bs "OK"))] s7_reports x &&
      match d_run (s7_driver PA) x s7_reports with Ok (y, _) => s7_talk [None] (runs_ 1) y &&
        match d_step (s7_driver PA) (OpRun true) [] y with Ok (_, _, z) => s7_talk [countedb PA (bs "+CIPRXGET: 2,0,") 5; Some (prefixb (bs "OK"))] s7_gives z &&
          match d_run (s7_driver PA) z s7_gives with Ok (w, _) => s7_talk [None; countedb PA (bs "+CIPRXGET: 4,0,") 0; Some (prefixb (bs "OK"))] s7_ends_fetch w | _ => false end
        | _ => false end | _ => false end
  | Read b => match d_step (s7_driver PA) (OpRead (length b)) [] x with Ok (DData b' _, _, _) => if list_eq_dec ascii_dec b' b then true else false | _ => false end
  | Idle => s7_talk [None] [call (OpRun true)] x
  | Disconnect => match d_step (s7_driver PA) OpDisconnect [] x with
      Ok (_, _, y) => talks (s7_driver PA) (silentb s7_quiet_words) (fun _ => true) 64 s7_close_check s7_ends y | _ => false end
  end.
Lemma s7_part_deal : forall i d tr d', s7_hist PA d tr d' -> map (fun e => (e_op e, e_sch e)) tr = s7_part i -> s7_partb i d = true -> s7_deal PA 64 d i tr d'.
Proof.
  intros i d tr d' Hh Em Hb.
  assert (Hpl : forall d : dv, true = true -> plain_lines (s7_shape PA) d) by (intros x _; split; [exact whole_ends|intros L H; exact H]).
  pose proof (fun tr d d' Hc ps H => talks_dialogue (s7_driver PA) (s7_shape PA) s7_all s7_goodx s7_hum (silentb s7_hum_words) (fun L => proj1 (silentb_ok _ L)) (fun _ => true) Hpl 64 tr d d' Hc ps H) as T.
  pose proof (fun tr d d' Hc ps H => talks_dialogue (s7_driver PA) (s7_shape PA) s7_all s7_goodx s7_noise (silentb s7_quiet_words) (fun L => proj1 (silentb_ok _ L)) (fun _ => true) Hpl 64 tr d d' Hc ps H) as Q.
  destruct i as [a|w|n|b| |]; unfold s7_part in Em; cbn [s7_partb] in Hb.
  - destruct (list_eq_dec ascii_dec a (bs "1.2.3.4")) as [->|]; [|discriminate Hb]. destruct (hist_one _ _ _ _ _ _ _ _ _ Hh Em) as (e & tr2 & d1 & -> & Eo & Es & Mc & Hs & Hc & Ec). cbn [fst snd call] in Eo, Es, Ec. rewrite Ec in Hb.
    destruct (e_out e) as [|b| | | |] eqn:Eout; try discriminate Hb. destruct b; [|discriminate Hb]. rewrite !andb_true_iff in Hb. destruct Hb as ((B1 & B2) & B3). apply Nat.leb_le in B1.
    apply (sd_connect PA 64 d e d1 tr2 d' _ false Hs Eo Eout B1); [apply Forall_forall; intros c Hc0; apply Nat.leb_le; exact (proj1 (forallb_forall _ _) B2 c Hc0)|].
    rewrite <- Mc in B3. refine (dialogue_same _ _ _ _ _ _ _ _ _ _ _ (Q tr2 d1 d' Hc _ B3) _ _). same_replies.
  - destruct (hist_one _ _ _ _ _ _ _ _ _ Hh Em) as (e & tr2 & d1 & -> & Eo & Es & Mc & Hs & Hc & Ec). cbn [fst snd call] in Eo, Es, Ec. rewrite Ec in Hb.
    destruct (e_out e) as [| |k| | |] eqn:Eout; try discriminate Hb. rewrite !andb_true_iff in Hb. destruct Hb as (((((B1 & B2) & B3) & B4) & B5) & B6).
    apply Nat.eqb_eq in B1. apply Nat.ltb_lt in B2. apply Nat.leb_le in B3. apply Z.ltb_lt in B4. apply Nat.leb_le in B5. subst k.
    replace (Write w) with (Write (firstn (length w) w)) by (rewrite firstn_all; reflexivity).
    apply (sd_write PA 64 d e d1 tr2 d' w (length w) (length w)); auto.
    rewrite <- Mc in B6. refine (dialogue_same _ _ _ _ _ _ _ _ _ _ _ (Q tr2 d1 d' Hc _ B6) _ _). same_replies.
  - destruct (hist_part _ _ _ _ _ _ _ _ _ Hh Em) as (tr1 & trc & d1 & o2 & -> & M1 & Mc & H1 & Hc1 & R2).
    destruct (hist_one _ _ _ _ _ _ _ _ _ Hc1 Mc) as (e & trd & d1' & -> & Eo & Es & Md & Hs & Hd1 & Ec). cbn [fst snd call] in Eo, Es, Ec.
    destruct (hist_part _ _ _ _ _ _ _ _ _ Hd1 Md) as (tr2 & tr3 & d2 & o3 & -> & M2 & M3 & H2 & H3 & R3).
    rewrite R2, Ec, R3, !andb_true_iff in Hb.
    destruct Hb as ((((C1 & C2) & C3) & C4) & C5 & C6 & C7). apply Z.eqb_eq in C1. subst n. apply Z.leb_le in C2. apply Nat.ltb_lt in C3.
    replace (e :: tr2 ++ tr3) with ((e :: tr2 ++ []) ++ tr3) by (rewrite app_nil_r; reflexivity).
    apply (sd_fetch PA 64 d 5 [5%Z] tr1 d1 (e :: tr2 ++ []) d2 tr3 d'); auto; try lia; try (repeat constructor; fail).
    + rewrite <- M1 in C4. refine (dialogue_same _ _ _ _ _ _ _ _ _ _ _ (T tr1 d d1 H1 _ C4) _ _). count_replies.
    + assert (Hh2 : hears None e /\ roomy 64 d1 e).
      { assert (Mx : runs_ 1 = map (fun e => (e_op e, e_sch e)) [e]) by (cbn [map]; rewrite Eo, Es; reflexivity). rewrite Mx in C5.
        pose proof (T [e] d1 d1' (hist_cons _ _ _ _ _ _ _ _ _ Hs (hist_nil _ _ _ _ _)) _ C5) as Z. inversion Z; subst; auto. exfalso. rewrite Eo in *. discriminate. }
      destruct Hh2 as [Hh2 Hr]. apply (ch_cons _ _ _ _ _ e d1' _ _ _ d2); auto; [|constructor].
      rewrite <- M2 in C6. refine (dialogue_same _ _ _ _ _ _ _ _ _ _ _ (T tr2 d1' d2 H2 _ C6) _ _). count_replies.
    + rewrite <- M3 in C7. refine (dialogue_same _ _ _ _ _ _ _ _ _ _ _ (T tr3 d2 d' H3 _ C7) _ _). count_replies.
  - destruct (hist_one _ _ _ _ _ _ _ _ _ Hh Em) as (e & tr2 & d1 & -> & Eo & Es & Mc & Hs & Hc & Ec). cbn [fst snd call] in Eo, Es, Ec. rewrite Ec in Hb.
    apply map_eq_nil in Mc. subst tr2. inversion Hc; subst. destruct (e_out e) eqn:Eout; try discriminate Hb.
    match type of Hb with (if list_eq_dec _ ?u _ then _ else _) = _ => destruct (list_eq_dec ascii_dec u b) as [->|]; [|discriminate Hb] end. exact (sd_read PA 64 d e d' _ b _ Hs Eo Eout).
  - destruct (hist_one _ _ _ _ _ _ _ _ _ Hh Em) as (e & tr2 & d1 & -> & Eo & Es & Mc & Hs & Hc & Ec). cbn [fst snd call] in Eo, Es, Ec.
    apply map_eq_nil in Mc. subst tr2. inversion Hc; subst.
    rewrite <- Em in Hb. pose proof (T [e] d d' Hh _ Hb) as Z. inversion Z; subst; [exfalso; rewrite Eo in *; discriminate|]. apply sd_idle; auto.
  - destruct (hist_one _ _ _ _ _ _ _ _ _ Hh Em) as (e & tr2 & d1 & -> & Eo & Es & Mc & Hs & Hc & Ec). cbn [fst snd call] in Eo, Es, Ec. rewrite Ec in Hb.
    apply (sd_disconnect PA 64 d e d1 tr2 d' Hs Eo). rewrite <- Mc in Hb. refine (dialogue_same _ _ _ _ _ _ _ _ _ _ _ (Q tr2 d1 d' Hc _ Hb) _ _). same_replies.
Qed.

Fixpoint s7_partsb (l : list deal) (x : dv) : bool :=
  match l with
  | [] => true
  | i :: l' => s7_partb i x && match d_run (s7_driver PA) x (s7_part i) with Ok (y, _) => s7_partsb l' y | _ => false end
  end.
Lemma s7_parts_session : forall l c d tr d', s7_hist PA d tr d' -> map (fun e => (e_op e, e_sch e)) tr = concat (map s7_part l) -> s7_partsb l d = true ->
  fold_left (fun o i => match o with Some c => follows c i | None => None end) l (Some c) <> None ->
  exists c', session (s7_deal PA 64) c d l tr d' c' /\ fold_left (fun o i => match o with Some c => follows c i | None => None end) l (Some c) = Some c'.
Proof.
  induction l as [|i l IH]; intros c d tr d' Hh Em Hb Hf; cbn [map concat s7_partsb fold_left] in *.
  - apply map_eq_nil in Em. subst tr. inversion Hh; subst. exists c. split; [constructor|reflexivity].
  - destruct (hist_part _ _ _ _ _ _ _ _ _ Hh Em) as (tr1 & tr2 & d1 & o2 & -> & M1 & M2 & H1 & H2 & R2).
    rewrite R2, andb_true_iff in Hb. destruct Hb as [B1 B2].
    destruct (follows c i) as [c1|] eqn:Ef; [|exfalso; apply Hf; clear; induction l; [reflexivity|exact IHl]].
    destruct (IH c1 d1 tr2 d' H2 M2 B2 Hf) as (c' & S & E). exists c'. split; [|exact E].
    exact (DrvSession.se_next _ _ _ _ _ _ _ _ _ _ _ Ef (s7_part_deal i d tr1 d1 H1 M1 B1) S).
Qed.
Definition s7_ex_deals : list deal :=
  [Connect (bs "1.2.3.4"); Write (bs "hello"); Fetch 5; Read (bs "hello"); Idle; Disconnect; Connect (bs "1.2.3.4"); Write (bs "again"); Disconnect].
Example C79_sim7_case : exists d0 tr0 d tr d', s7_built d0 /\ s7_hist PA d0 tr0 d /\ s7_between false d /\
  session (s7_deal PA 64) false d s7_ex_deals tr d' false.
Proof.
  destruct s7_ex_built as (d0 & E0 & Hb).
  set (h := s7_prepare ++ concat (map s7_part s7_ex_deals)).
  assert (Hrun : exists d outs, d_run (s7_driver PA) d0 h = Ok (d, outs)).
  { assert (H : then_ (s7_driver PA) s7_ex h (fun _ => true) = true) by (vm_compute; reflexivity). unfold then_ in H. rewrite E0 in H.
    destruct (d_run (s7_driver PA) d0 h) as [[d outs]|u]; [eauto|discriminate H]. }
  destruct Hrun as (d' & outs & Hrun).
  assert (Hv : s7_valid h). { apply (validb_ok _ (fun x => match x with SetApn p => strb p | _ => true end)); [intros [] H; try exact I; apply strb_ok, H|vm_compute; reflexivity]. }
  destruct (s7_every_run PA d0 h d' outs Hb Hv Hrun) as (tra & Ha & Em & _). unfold h in Em.
  destruct (hist_part _ _ _ _ _ _ _ _ _ Ha Em) as (tr0 & tr & d & o1 & _ & M0 & Mb & H0 & Hb1 & R1).
  assert (C1 : then_ (s7_driver PA) s7_ex s7_prepare (fun x => s7_partsb s7_ex_deals x) = true) by (vm_compute; reflexivity).
  apply (then_at _ _ _ _ _ _ _ _ _ _ _ E0 R1) in C1. cbv beta in C1.
  destruct (s7_parts_session s7_ex_deals false d tr d' Hb1 Mb C1) as (c' & S & E); [vm_compute; discriminate|].
  assert (c' = false) as -> by (vm_compute in E; congruence).
  exists d0, tr0, d, tr, d'. splits; auto.
  refine (proj1 (C79_sim7_prepared PA false d0 tr0 d (proj1 (C79_sim7_fresh d0 Hb _)) H0 _)).
  - clear -E0. assert (H : then_ (s7_driver PA) s7_ex [] (fun x => isopen x) = true) by (vm_compute; reflexivity). unfold then_ in H. rewrite E0 in H. exact H.
  - apply Forall_forall. intros x Hx. assert (Hi : In (e_op x, e_sch x) s7_prepare) by (rewrite <- M0; exact (in_map (fun e => (e_op e, e_sch e)) tr0 x Hx)).
    destruct Hi as [Hi|[Hi|[]]]; injection Hi as <- _; reflexivity.
Qed.

Print Assumptions C79_sim7_fresh.
Print Assumptions C79_sim7_prepared.
Print Assumptions C79_sim7_deal.
Print Assumptions C79_sim7_sessions.
