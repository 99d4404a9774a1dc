(** C79 for the CC1352P7 driver. *)
From Coq Require Import String Ascii ZArith List Bool Arith Lia ZifyBool ZifyNat.
From Verif Require Import Base QueueSpec LineSpec SerialSpec Ring RingProofs LineRing LineRingProofs Serial SerialProofs
  SerStep TaskMacros CStr CStrProofs Dev DevProofs DevProps SimDev SimProofs SimSpec SimParse SimLog Sym DrvStep DrvCommon DrvRun DrvHist DrvActs DrvHand DrvSend DrvFetch DrvTalk DrvSession Session HandCheck
  Cc1352 CcSpec CcProofs CcCtl CcCtlIn CcRun AtLine CcHist CcThms CcMore CcLine CcReq CcRest CcStuck CcHand CcSend CcFetch CcSession CcProps CcHandProps CcSendProps CcFetchProps.
Import ListNotations.
Local Open Scope nat_scope.
Ltac Zify.zify_post_hook ::= Z.div_mod_to_equations.
Local Notation dv := (dev ccsend ccreply ccx).
Local Notation ent := (@entry ccop).

(** What the program and the module do together, [N] bytes being free in the port's transmit buffer
    whenever run() is called. *)
Inductive sc_deal (P : plat) (N : nat) : dv -> deal -> list ent -> dv -> Prop :=
| sd_connect d e d1 tr d' : sc_step P d e d1 -> e_op e = OpConnect -> e_out e = DBool true ->
    dialogue (sc_step P) sc_noise N sc_open_replies d1 tr d' -> sc_deal P N d (Connect []) (e :: tr) d'
| sd_write d e d1 tr d' data n k : sc_step P d e d1 -> e_op e = OpWrite data n -> n <= length data -> e_out e = DCount k -> 0 < k ->
    22 + k <= N -> (Z.of_nat k < 100000)%Z -> length (announcement false k [CR; LF]) <= N ->
    dialogue (sc_step P) sc_noise N sc_send_replies d1 tr d' -> sc_deal P N d (Write (firstn k data)) (e :: tr) d'
| sd_fetch d n ms tr1 d1 tr2 d2 : dialogue (sc_step P) sc_hum N [numbered P (bs "+IPD") 5 n] d tr1 d1 -> chunks (sc_step P) sc_hum N (numbered P (bs "+CIPRECVDATA") 13) d1 ms tr2 d2 ->
    (0 < n < 2147483648)%Z -> Forall (fun m => (0 < m)%Z) ms -> fold_right Z.add 0%Z ms = n ->
    (Z.of_nat (avail (rbuf d)) + n <= Z.of_nat (rsize (rbuf d)))%Z -> 30 < rxsz (io d) -> sc_deal P N d (Fetch n) (tr1 ++ tr2) d2
| sd_read d e d' n b k : sc_step P d e d' -> e_op e = OpRead n -> e_out e = DData b k -> sc_deal P N d (Read b) [e] d'
| sd_look d e d' : sc_step P d e d' -> looks (e_op e) = true -> sc_deal P N d Idle [e] d'
| sd_idle d e d' : sc_step P d e d' -> roomy N d e -> hears None e -> sc_deal P N d Idle [e] d'
| sd_disconnect d e d1 tr d' : sc_step P d e d1 -> e_op e = OpDisconnect -> dialogue (sc_step P) sc_noise N sc_close_replies d1 tr d' ->
    sc_deal P N d Disconnect (e :: tr) d'.

(** What it makes the driver send, given host, type and port. *)
Definition sc_speaks (h : cptr) (t p : Z) (i : deal) (q : bytes) : Prop :=
  match i with
  | Connect _ => q = commands (sc_opening h t p)
  | Write b => q = announcement false (length b) [CR; LF] ++ b
  | Fetch n => exists ks, q = commands (map (fun k => bs "AT+CIPRECVDATA=" ++ dec k) ks) /\ Forall (fun k => (0 < k <= n)%Z /\ (k <= 1220)%Z) ks
  | Read _ | Idle => q = []
  | Disconnect => q = commands [bs "AT+CIPCLOSE"]
  end.

(** Between two of them: connected or not, with nothing under way. *)
Definition sc_between (P : plat) (c : bool) (d : dv) : Prop :=
  (if c then sc_at_ease P d else sc_at_rest P d) /\ fConnect (fl d) = false /\ fDisc (fl d) = false /\ fData (fl d) = false /\ fLine (fl d) = true /\
  toReceive d = 0%Z /\ toRead d = 0%Z /\ ring_ok (rbuf d) /\ ring_ok (wbuf d) /\ contents (wbuf d) = [].

(** A new driver, and setting the parameters. *)
Theorem C79_cc_fresh : forall P d, sc_built d -> isopen d = true -> mac_request P (cmac (ext d)) = false -> sc_between P false d /\ contents (rbuf d) = [].
Proof.
  intros P d Hb Ho Hm. pose proof (C52_cc_fresh P d Hb Ho Hm) as R. destruct (sc_built_fresh d Hb) as (_ & _ & _ & _ & _ & _ & E4 & _ & A1 & A2 & A3 & A4 & _ & A5 & A6 & _).
  split; [|exact A1]. unfold sc_between. rewrite E4. splits; auto.
Qed.

(** Setting parameters between two sessions, or during one. *)
Theorem C79_cc_prepared : forall P c d0 tr d, sc_between P c d0 -> sc_hist P d0 tr d -> Forall (fun e => sc_sets (e_op e) = true) tr ->
  sc_between P c d /\ sc_params d = fold_left sc_given tr (sc_params d0) /\ rbuf d = rbuf d0.
Proof.
  intros P c d0 tr d Hr Hh. induction Hh as [d|d e d1 tr d2 Hs Hh IH]; intros HF; [auto|].
  inversion HF as [|? ? He HF']; subst. pose proof Hs as (_ & _ & _ & E & _). cbn [fold_left].
  assert (H : sc_between P c d1 /\ sc_params d1 = sc_given (sc_params d) e /\ rbuf d1 = rbuf d).
  { destruct (looks (e_op e)) eqn:El.
    - rewrite (looked _ _ _ _ _ _ _ _ _ _ _ E El). split; [destruct c; exact Hr|]. unfold sc_given, sc_params. cbn [host typ port rbuf set_io]. destruct (e_op e); try discriminate El; split; reflexivity.
    - destruct (called _ _ _ _ _ _ _ E) as (z & x & Ex & ->). unfold sc_given. destruct (e_op e) eqn:Eo; try discriminate He; try discriminate El.
      + cbn [d_call] in Ex. injection Ex as _ <-. split; [destruct c; exact Hr|split; reflexivity]. }
  destruct H as (H1 & H2 & H3). destruct (IH H1 HF') as (H4 & H5 & H6). split; [exact H4|]. rewrite H5, H2, H6, H3. split; reflexivity.
Qed.

(** A run() at rest. *)
Lemma sc_stays : forall P N d e d', sc_step P d e d' -> roomy N d e -> hears None e -> sc_going P d -> wait d = None -> 20 <= N ->
  sst d = SCNotConnected -> fConnect (fl d) = false ->
  put (e_ev e) = [] /\ sc_at_rest P d' /\ sc_params d' = sc_params d.
Proof.
  intros P N d e d' Hs Hr Hh Hg Hw HN Es Hc.
  destruct (sc_ready P N None d e d' Hs Hr Hh Hg Hw HN) as (dm & d1 & y & HI & G & W & S & Pm & (_ & F1 & _ & _) & _ & _ & Q & Em & -> & Hp).
  unfold sc_machine in Em. cbn [sst set_io] in Em. rewrite S, Es in Em. unfold at_handle_connect in Em. cbn [fl set_io set_cst dev_set_delay set_tsk] in Em. rewrite F1, Hc in Em. apply ok_inj in Em. subst d1.
  cbn [snd] in *. split; [apply Hp, quiet_ioeff; exact Q|]. split; [|exact Pm]. unfold sc_at_rest. split; [exact G|]. split; [cbn; congruence|exact W].
Qed.

Lemma sc_looks : forall P x e x', sc_step P x e x' -> looks (e_op e) = true -> x' = set_io (io x') x /\ put (e_ev e) = [] /\ payload e = [].
Proof.
  intros P x e x' Hs Hl. destruct (sc_look P x e x' Hs Hl) as [A B]. splits; auto.
  apply (call_silent _ _ _ _ _ _ _ _ _ _ _ Hs). destruct (e_op e); try discriminate Hl; reflexivity.
Qed.

Lemma sc_deal_dialogue : forall P N r w x y ps d tr d', dialogue (sc_step P) sc_noise N ps d tr d' ->
  Forall (fun p : option (bytes -> Prop) => match p with Some q => forall L, q L -> sc_harmless L | None => True end) ps ->
  sc_calm r w x y d -> sc_calm r w x y d' /\ payloads tr = [].
Proof.
  intros P N r w x y ps d tr d' Hd HF HK.
  refine (dialogue_keeps _ sc_noise (sc_harmless) N (sc_calm r w x y) _ _ _ ps d tr d' Hd HF HK).
  - intros L HL. unfold sc_noise in HL. rewrite !Forall_cons_iff in HL. destruct HL as (L1 & L2 & L3 & L4 & _).
    unfold sc_harmless, sc_is_error. rewrite L1, L2. auto.
  - intros z e z' Hs Hl Hz. destruct (sc_look P z e z' Hs Hl) as [-> _]. split; [apply sc_calm_io; exact Hz|].
    apply (call_silent _ _ _ _ _ _ _ _ _ _ _ Hs). destruct (e_op e); try discriminate Hl; reflexivity.
  - intros z e z' Hs Hr Hh Hz. exact (sc_calm_run P N r w x y z e z' Hs Hr Hh Hz).
Qed.

Lemma sc_reply_harmless : forall w L, In w ["OK"; ">"]%string -> prefixb (bs w) L = true -> sc_harmless L.
Proof.
  intros w L Hw HL. pose proof (fun b => prefix_clash (bs w) b L HL) as X. unfold sc_harmless, sc_is_error.
  cbn [In] in Hw. destruct Hw as [<-|[<-|[]]]; rewrite !X by reflexivity; auto.
Qed.

Ltac meek := cbn [app repeat]; repeat (apply Forall_cons; [first [exact I|
  let L := fresh in let HL := fresh in intros L HL; first [apply (sc_reply_harmless "OK"); [cbn; tauto|exact HL]|apply (sc_reply_harmless ">"); [cbn; tauto|exact HL]]]|]); apply Forall_nil.

Lemma sc_between_calm : forall P c d, sc_between P c d -> sc_calm (rbuf d) (Some (wbuf d)) false false d.
Proof.
  intros P c d (R & F1 & F2 & F3 & F4 & F5 & F6 & F7 & F8 & F9). pose proof (empty_avail _ F8 F9) as F10.
  assert (G : sc_going P d /\ (sst d = SCConnected \/ sst d = SCNotConnected)) by (destruct c; [destruct R as (R1 & _ & _ & R2 & _)|destruct R as (R1 & R2 & _)]; auto).
  destruct G as [(G1 & G2 & G3 & G4 & _) G]. unfold sc_calm. splits; auto; try (rewrite G4; discriminate); try (destruct G as [->| ->]; discriminate).
  intros v Ev. injection Ev as <-. splits; auto. destruct G as [->| ->]; discriminate.
Qed.

(** One of them. *)
Theorem C79_cc_deal : forall P N c i c1 d tr d1, follows c i = Some c1 -> sc_deal P N d i tr d1 -> sc_between P c d ->
  40 <= N -> Forall (fun q => length q + 2 <= N) (sc_opening (host d) (typ d) (port d)) ->
  sc_between P c1 d1 /\ sc_speaks (host d) (typ d) (port d) i (sent tr) /\
  reads i ++ contents (rbuf d1) = contents (rbuf d) ++ payloads tr /\ Z.of_nat (length (payloads tr)) = fetched i /\ sc_params d1 = sc_params d.
Proof.
  intros P N c i c1 d tr d1 Hf Hd HB HN HO. pose proof (sc_between_calm P c d HB) as HC. pose proof HB as (R & F1 & F2 & F3 & F4 & F5 & F6 & F7 & F8 & F9). pose proof (empty_avail _ F8 F9) as F10.
  destruct Hd as [d e d1 tr d' Hs Eo Eb Hd|d e d1 tr d' data n k Hs Eo Hn Ek Hk H1 H2 H3 Hd|d n ms tr1 d1 tr2 d2 Hd1 Hd2 Hn Hms Hsum Hfit Hrx|d e d' n b k Hs Eo Ek|d e d' Hs Hl|d e d' Hs Hr Hh|d e d1 tr d' Hs Eo Hd].
  - destruct c; [discriminate Hf|]. injection Hf as <-.
    destruct (C52_cc_opens P N d e d1 tr d' R Hs Eo Eb Hd ltac:(lia) HO) as (A1 & A2 & A3 & A4).
    destruct (call_silent _ _ _ _ _ _ _ _ _ _ _ Hs ltac:(rewrite Eo; reflexivity)) as [Hp Hq].
    assert (K : sc_calm (rbuf d) (Some (wbuf d)) true false d1).
    { pose proof Hs as (_ & _ & _ & E & _). rewrite Eo in E. destruct (C31_connect_cc1352 P _ _ _ _ _ E) as (b & Ebo & _ & Ed). rewrite Eb in Ebo. injection Ebo as <-. rewrite Ed.
      destruct HC as (K1 & K2 & K3 & K4 & K5 & K6 & K7 & K8 & K10 & K11 & K12 & K13 & K14 & K15 & K16). unfold sc_calm. cbn. splits; auto. left. split; [reflexivity|apply R]. }
    destruct (sc_deal_dialogue P N (rbuf d) (Some (wbuf d)) true false _ d1 tr d' Hd) as [K2 Hpl]; [|exact K|].
    { unfold sc_open_replies. meek. }
    destruct K2 as (_ & _ & _ & C1 & C2 & C3 & C4 & C5 & _ & _ & _ & _ & C6 & C7 & C8). destruct (C6 _ eq_refl) as (W1 & W2 & W3).
    rewrite payloads_cons, Hp, Hpl, sent_cons, Hq, A1, C5. cbn [app reads fetched length sc_speaks]. rewrite app_nil_r. splits; auto.
    unfold sc_between. rewrite C5, W1. splits; auto; [destruct C7 as [[_ C7]|C7]; [|exact C7]; exfalso; destruct A3 as (_ & _ & _ & A3 & _); congruence|destruct C8 as [(C8 & _)|C8]; [discriminate C8|exact C8]].
  - destruct c; [|discriminate Hf]. injection Hf as <-.
    pose proof Hs as (_ & _ & _ & E & _). rewrite Eo in E. destruct (C31_write _ _ _ _ _ _ _ _ _ _ _ _ F8 Hn E) as (Ek2 & Ec & Eok & Ed). rewrite Ek in Ek2. injection Ek2 as Ek2.
    assert (Hl : length (firstn k data) = k) by (apply firstn_length_le; destruct (cst d); lia).
    destruct (C70_cc_sends P N d e d1 tr d' data n k R F2 F3 F8 F9 Hs Eo Hn Ek Hk Hd H1 H2 H3) as (A1 & A2 & A3 & A4 & A5 & A6 & A7 & A8).
    destruct (call_silent _ _ _ _ _ _ _ _ _ _ _ Hs ltac:(rewrite Eo; reflexivity)) as [Hp Hq].
    assert (K : sc_calm (rbuf d) None false false d1).
    { rewrite Ed. destruct HC as (K1 & K2 & K3 & K4 & K5 & K6 & K7 & K8 & K10 & K11 & K12 & K13 & K14 & K15 & K16). unfold sc_calm. cbn. splits; auto. discriminate. }
    destruct (sc_deal_dialogue P N (rbuf d) None false false _ d1 tr d' Hd) as [K2 Hpl]; [|exact K|].
    { unfold sc_send_replies. meek. }
    destruct K2 as (_ & _ & _ & C1 & C2 & C3 & C4 & C5 & _ & _ & _ & _ & C6 & C7 & C8).
    rewrite payloads_cons, Hp, Hpl, sent_cons, Hq, A1, C5. cbn [app reads fetched length sc_speaks]. rewrite app_nil_r, Hl. splits; auto.
    unfold sc_between. rewrite C5. splits; auto. destruct C7 as [[C7 _]|C7]; [discriminate C7|exact C7].
  - destruct c; [|discriminate Hf]. injection Hf as <-.
    assert (HV : sc_vacant P d) by (unfold sc_vacant; splits; auto).
    destruct (C75_cc_fetches P N n ms d tr1 d1 tr2 d2 HV Hd1 Hd2 Hn Hms Hsum Hfit Hrx HN) as (ks & A1 & A2 & A3 & A4 & A5 & A6 & A7).
    destruct A6 as (B1 & B2 & B3 & B4 & B5 & B6 & B7 & B8).
    assert (U : sc_unasked d2).
    { assert (Hn1 : forall L, sc_hum L -> sc_is_error L = false) by (intros L HL; apply (sc_hum_inv L HL)).
      assert (Hn2 : forall w L, In w ["OK"; "+IPD"; "+CIPRECVDATA"]%string -> prefixb (bs w) L = true -> sc_is_error L = false).
      { intros w L Hw HL. pose proof (fun b => prefix_clash (bs w) b L HL) as X. unfold sc_is_error. cbn [In] in Hw. destruct Hw as [<-|[<-|[<-|[]]]]; rewrite !X by reflexivity; reflexivity. }
      refine (chunks_kind _ _ _ N _ _ Hn1 (sc_unasked_look P) (sc_unasked_run P N) _ _ _ _ _ _ Hd2 _).
      - intros m L (HL & _). apply (Hn2 "+CIPRECVDATA"%string); [cbn; tauto|exact HL].
      - intros L HL. apply (Hn2 "OK"%string); [cbn; tauto|exact HL].
      - refine (dialogue_kind _ _ _ N _ Hn1 (sc_unasked_look P) (sc_unasked_run P N) _ _ _ _ Hd1 _ _).
        + apply Forall_cons; [|apply Forall_nil]. intros L (HL & _). apply (Hn2 "+IPD"%string); [cbn; tauto|exact HL].
        + unfold sc_unasked. destruct R as ((G1 & G2 & G3 & _) & _). auto. }
    rewrite A1, A4. cbn [reads fetched app sc_speaks]. apply pair_eq in A7 as [A7 _]. apply pair_eq in A7 as [A7 D5]. apply pair_eq in A7 as [A7 D4]. apply pair_eq in A7 as [A7 D3]. apply pair_eq in A7 as [D1 D2].
    splits; auto.
    + unfold sc_between. rewrite D2. splits; auto. apply U.
    + exists ks. split; [reflexivity|]. apply Forall_forall. intros z Hz. rewrite Forall_forall in A3. destruct (A3 z Hz) as (Q1 & Q2 & _). auto.
    + unfold sc_params. rewrite D3, D4, D5. reflexivity.
  - pose proof Hs as (_ & _ & _ & E & _). rewrite Eo in E.
    destruct (call_silent _ _ _ _ _ _ _ _ _ _ _ Hs ltac:(rewrite Eo; reflexivity)) as [Hp Hq].
    destruct (read_keeps _ _ _ _ _ _ _ _ _ _ _ F7 E) as (Eb & Ec & Eok & Ed). rewrite Ek in Eb. injection Eb as -> _.
    assert (c1 = c) as -> by (destruct c; injection Hf as <-; reflexivity).
    cbn [payloads map concat sent]. rewrite Hp, Hq, Ec. cbn [app reads fetched length sc_speaks]. rewrite app_nil_r, firstn_skipn. splits; auto; [|rewrite Ed; reflexivity].
    rewrite Ed. rewrite Ed in Eok. unfold sc_between. destruct c; splits; auto.
  - destruct (sc_look P d e d' Hs Hl) as [Ed Hq].
    destruct (call_silent _ _ _ _ _ _ _ _ _ _ _ Hs) as [Hp _]; [destruct (e_op e); try discriminate Hl; reflexivity|].
    assert (c1 = c) as -> by (destruct c; injection Hf as <-; reflexivity).
    cbn [payloads map concat sent]. rewrite Hp, Hq, Ed. cbn [app reads fetched length sc_speaks]. rewrite app_nil_r. splits; auto.
  - assert (c1 = c) as -> by (destruct c; injection Hf as <-; reflexivity).
    destruct (sc_calm_run P N _ _ _ _ d e d' Hs Hr (or_introl Hh) HC) as [K2 Hp].
    destruct K2 as (_ & _ & _ & C1 & C2 & C3 & C4 & C5 & _ & _ & _ & _ & C6 & C7 & C8). destruct (C6 _ eq_refl) as (W1 & W2 & W3).
    destruct C7 as [[C7 _]|C7]; [discriminate C7|]. destruct C8 as [[C8 _]|C8]; [discriminate C8|].
    assert (A : put (e_ev e) = [] /\ (if c then sc_at_ease P d' else sc_at_rest P d') /\ sc_params d' = sc_params d).
    { destruct c.
      - destruct R as (R1 & R2 & R3 & R4 & R5). destruct (sc_settles P N None d e d' Hs Hr Hh R1 R5 ltac:(lia) R4 F10 F3 F2 R3) as (A1 & A2 & A3 & A4 & A5 & A6 & A7 & _).
        splits; auto. unfold sc_at_ease, ip_is_connected. rewrite A3, A7. splits; auto.
      - destruct R as (R1 & R2 & R3). exact (sc_stays P N d e d' Hs Hr Hh R1 R3 ltac:(lia) R2 F1). }
    destruct A as (A1 & A2 & A3). cbn [payloads map concat sent]. rewrite Hp, A1, C5. cbn [app reads fetched length sc_speaks]. rewrite app_nil_r. splits; auto.
    unfold sc_between. rewrite C5, W1. destruct c; splits; auto.
  - destruct c; [|discriminate Hf]. injection Hf as <-. pose proof R as (R1 & R2 & R3 & R4 & R5).
    destruct (C52_cc_closes P N d e d1 tr d' R F3 F10 Hs Eo Hd ltac:(lia)) as (A1 & A2 & A3 & A4).
    destruct (call_silent _ _ _ _ _ _ _ _ _ _ _ Hs ltac:(rewrite Eo; reflexivity)) as [Hp Hq].
    pose proof Hs as (_ & _ & _ & E & _). rewrite Eo in E. apply C31_disconnect in E. assert (Hi : ip_is_idle d = false) by (unfold ip_is_idle, ip_is_connected in *; destruct (cst d); congruence). rewrite Hi in E.
    assert (K : sc_calm (rbuf d) (Some (wbuf d)) false true d1).
    { rewrite E. destruct HC as (K1 & K2 & K3 & K4 & K5 & K6 & K7 & K8 & K10 & K11 & K12 & K13 & K14 & K15 & K16). unfold sc_calm. cbn. splits; auto. left. splits; auto. discriminate. }
    unfold sc_close_replies in Hd.
    destruct (dialogue_first _ _ _ _ _ _ _ (sc_looks P) Hd) as (tr1 & e1 & tr2 & y & x2 & Et & T1 & T2 & Hs1 & Hr1 & Hh1 & Hd1). remember (set_io y d1) as x1 eqn:Ex.
    assert (Hx1 : sc_calm (rbuf d) (Some (wbuf d)) false true x1) by (rewrite Ex; exact K).
    destruct (sc_calm_run P N _ _ _ _ x1 e1 x2 Hs1 Hr1 (or_introl Hh1) Hx1) as [K2 Hp1].
    destruct (sc_leave P N x1 e1 x2 Hs1 Hr1 Hh1) as (_ & _ & L1 & _); try (rewrite Ex, E; (exact R1 || exact R5 || exact R4 || exact R3 || exact F3 || exact F10 || reflexivity)); [lia|].
    assert (K3 : sc_calm (rbuf d) (Some (wbuf d)) false false x2).
    { destruct K2 as (M1 & M2 & M3 & M4 & M5 & M6 & M7 & M8 & M10 & M11 & M12 & M13 & M14 & M15 & M16). unfold sc_calm. splits; auto. right.
      destruct M16 as [(_ & M16 & _)|M16]; [congruence|exact M16]. }
    destruct (sc_deal_dialogue P N (rbuf d) (Some (wbuf d)) false false _ x2 tr2 d' Hd1) as [K4 Hpl]; [|exact K3|].
    { meek. }
    destruct K4 as (_ & _ & _ & C1 & C2 & C3 & C4 & C5 & _ & _ & _ & _ & C6 & C7 & C8). destruct (C6 _ eq_refl) as (W1 & W2 & W3).
    rewrite payloads_cons, Hp, sent_cons, Hq, A1, C5. assert (Hpt : payloads tr = []) by (rewrite Et, payloads_app, T2, payloads_cons, Hp1, Hpl; reflexivity).
    rewrite Hpt. cbn [app reads fetched length sc_speaks]. rewrite app_nil_r. splits; auto.
    unfold sc_between. rewrite C5, W1. splits; auto; [destruct C7 as [[C7 _]|C7]; [discriminate C7|exact C7]|destruct C8 as [(C8 & _)|C8]; [discriminate C8|exact C8]].
Qed.

(** Any number of them. *)
Theorem C79_cc_sessions : forall P N c d l tr d' c', session (sc_deal P N) c d l tr d' c' -> sc_between P c d ->
  40 <= N -> Forall (fun q => length q + 2 <= N) (sc_opening (host d) (typ d) (port d)) ->
  sc_between P c' d' /\ sc_params d' = sc_params d /\
  (exists ss, sent tr = concat ss /\ Forall2 (sc_speaks (host d) (typ d) (port d)) l ss) /\
  concat (map reads l) ++ contents (rbuf d') = contents (rbuf d) ++ payloads tr /\
  Z.of_nat (length (payloads tr)) = fold_right Z.add 0%Z (map fetched l).
Proof.
  intros P N c d l tr d' c' Hs HB HN HO.
  destruct (session_all (sc_deal P N) (fun c x => sc_between P c x /\ sc_params x = sc_params d) (sc_speaks (host d) (typ d) (port d))) with (2 := Hs) as ((A1 & A2) & A3 & A4 & A5); auto.
  clear - HN HO. intros c i c1 x tr x1 Hf Hd [HB Hp]. unfold sc_params in Hp.
  apply pair_eq in Hp as [Hp P3]. apply pair_eq in Hp as [P1 P2].
  destruct (C79_cc_deal P N c i c1 x tr x1 Hf Hd HB HN) as (A1 & A2 & A3 & A4 & A5); rewrite ?P1, ?P2, ?P3 in *; auto.
  splits; auto. rewrite A5. unfold sc_params. rewrite P1, P2, P3. reflexivity.
Qed.


(** Such sessions happen: scripts for what the program and the module do, and checks by computation. *)
Definition sc_part (i : deal) : @script ccop :=
  match i with
  | Connect _ => call OpConnect :: sc_answers
  | Write w => call (OpWrite w (length w)) :: sc_consents
  | Fetch _ => sc_reports ++ call (OpRun true) :: sc_gives
  | Read b => [call (OpRead (length b))]
  | Idle => [call (OpRun true)]
  | Disconnect => call OpDisconnect :: sc_ends
  end.
Definition sc_partb (i : deal) (x : dv) : bool :=
  match i with
  | Connect [] => match d_step (sc_driver PU) OpConnect [] x with
      Ok (DBool true, _, y) => talks (sc_driver PU) (silentb sc_quiet_words) (fun _ => true) 64 sc_open_check sc_answers y | _ => false end
  | Connect _ => false
  | Write w => match d_step (sc_driver PU) (OpWrite w (length w)) [] x with
      Ok (DCount k, _, y) => (k =? length w) && (0 <? k) && (22 + k <=? 64) && (Z.of_nat k <? 100000)%Z && (length (announcement false k [CR; LF]) <=? 64) &&
        talks (sc_driver PU) (silentb sc_quiet_words) (fun _ => true) 64 sc_send_check sc_consents y | _ => false end
  | Fetch n => (n =? 5)%Z && (Z.of_nat (avail (rbuf x)) + n <=? Z.of_nat (rsize (rbuf x)))%Z && (30 <? rxsz (io x)) &&
      sc_talk [numberedb PU (bs "+IPD") 5 5] sc_reports x &&
      match d_run (sc_driver PU) x sc_reports with Ok (y, _) => sc_talk [None] (runs_ 1) y &&
        match d_step (sc_driver PU) (OpRun true) [] y with Ok (_, _, z) => sc_talk [numberedb PU (bs "+CIPRECVDATA") 13 5; Some (prefixb (bs "OK"))] sc_gives z
        | _ => false end | _ => false end
  | Read b => match d_step (sc_driver PU) (OpRead (length b)) [] x with Ok (DData b' _, _, _) => if list_eq_dec ascii_dec b' b then true else false | _ => false end
  | Idle => sc_talk [None] [call (OpRun true)] x
  | Disconnect => match d_step (sc_driver PU) OpDisconnect [] x with
      Ok (_, _, y) => talks (sc_driver PU) (silentb sc_quiet_words) (fun _ => true) 64 sc_close_check sc_ends y | _ => false end
  end.
Local Ltac number_replies := repeat (apply Forall2_cons; [first [exact I|intro; apply numberedb_ok|intro; apply iff_refl]|]); apply Forall2_nil.
Lemma sc_part_deal : forall i d tr d', sc_hist PU d tr d' -> map (fun e => (e_op e, e_sch e)) tr = sc_part i -> sc_partb i d = true -> sc_deal PU 64 d i tr d'.
Proof.
  intros i d tr d' Hh Em Hb.
  assert (Hpl : forall d : dv, true = true -> plain_lines (sc_shape PU) d) by (intros x _; split; [exact whole_ends|intros L H; exact H]).
  pose proof (fun tr d d' Hc ps H => talks_dialogue (sc_driver PU) (sc_shape PU) (sc_all False) sc_goodx sc_hum (silentb sc_hum_words) (fun L => proj1 (silentb_ok _ L)) (fun _ => true) Hpl 64 tr d d' Hc ps H) as T.
  pose proof (fun tr d d' Hc ps H => talks_dialogue (sc_driver PU) (sc_shape PU) (sc_all False) sc_goodx sc_noise (silentb sc_quiet_words) (fun L => proj1 (silentb_ok _ L)) (fun _ => true) Hpl 64 tr d d' Hc ps H) as Q.
  destruct i as [a|w|n|b| |]; unfold sc_part in Em; cbn [sc_partb] in Hb.
  - destruct a; [|discriminate Hb]. destruct (hist_one _ _ _ _ _ _ _ _ _ Hh Em) as (e & tr2 & d1 & -> & Eo & Es & Mc & Hs & Hc & Ec). cbn [fst snd call] in Eo, Es, Ec. rewrite Ec in Hb.
    destruct (e_out e) as [|b| | | |] eqn:Eout; try discriminate Hb. destruct b; [|discriminate Hb]. apply (sd_connect PU 64 d e d1 tr2 d' Hs Eo Eout).
    rewrite <- Mc in Hb. refine (dialogue_same _ _ _ _ _ _ _ _ _ _ _ (Q tr2 d1 d' Hc _ Hb) _ _). same_replies.
  - destruct (hist_one _ _ _ _ _ _ _ _ _ Hh Em) as (e & tr2 & d1 & -> & Eo & Es & Mc & Hs & Hc & Ec). cbn [fst snd call] in Eo, Es, Ec. rewrite Ec in Hb.
    destruct (e_out e) as [| |k| | |] eqn:Eout; try discriminate Hb. rewrite !andb_true_iff in Hb. destruct Hb as (((((B1 & B2) & B3) & B4) & B5) & B6).
    apply Nat.eqb_eq in B1. apply Nat.ltb_lt in B2. apply Nat.leb_le in B3. apply Z.ltb_lt in B4. apply Nat.leb_le in B5. subst k.
    replace (Write w) with (Write (firstn (length w) w)) by (rewrite firstn_all; reflexivity).
    apply (sd_write PU 64 d e d1 tr2 d' w (length w) (length w)); auto.
    rewrite <- Mc in B6. refine (dialogue_same _ _ _ _ _ _ _ _ _ _ _ (Q tr2 d1 d' Hc _ B6) _ _). same_replies.
  - destruct (hist_part _ _ _ _ _ _ _ _ _ Hh Em) as (tr1 & trc & d1 & o2 & -> & M1 & Mc & H1 & Hc1 & R2).
    destruct (hist_one _ _ _ _ _ _ _ _ _ Hc1 Mc) as (e & tr2 & d1' & -> & Eo & Es & Md & Hs & H2 & Ec). cbn [fst snd call] in Eo, Es, Ec.
    rewrite R2, Ec, !andb_true_iff in Hb.
    destruct Hb as ((((C1 & C2) & C3) & C4) & C5 & C6). apply Z.eqb_eq in C1. subst n. apply Z.leb_le in C2. apply Nat.ltb_lt in C3.
    replace (e :: tr2) with (e :: tr2 ++ []) by (rewrite app_nil_r; reflexivity).
    apply (sd_fetch PU 64 d 5 [5%Z] tr1 d1 (e :: tr2 ++ []) d'); auto; try lia; try (repeat constructor; fail).
    + rewrite <- M1 in C4. refine (dialogue_same _ _ _ _ _ _ _ _ _ _ _ (T tr1 d d1 H1 _ C4) _ _). number_replies.
    + assert (Hh2 : hears None e /\ roomy 64 d1 e).
      { assert (Mx : runs_ 1 = map (fun e => (e_op e, e_sch e)) [e]) by (cbn [map]; rewrite Eo, Es; reflexivity). rewrite Mx in C5.
        pose proof (T [e] d1 d1' (hist_cons _ _ _ _ _ _ _ _ _ Hs (hist_nil _ _ _ _ _)) _ C5) as Z. inversion Z; subst; auto. exfalso. rewrite Eo in *. discriminate. }
      destruct Hh2 as [Hh2 Hr]. apply (ch_cons _ _ _ _ _ e d1' _ _ _ d'); auto; [|constructor].
      rewrite <- Md in C6. refine (dialogue_same _ _ _ _ _ _ _ _ _ _ _ (T tr2 d1' d' H2 _ C6) _ _). number_replies.
  - destruct (hist_one _ _ _ _ _ _ _ _ _ Hh Em) as (e & tr2 & d1 & -> & Eo & Es & Mc & Hs & Hc & Ec). cbn [fst snd call] in Eo, Es, Ec. rewrite Ec in Hb.
    apply map_eq_nil in Mc. subst tr2. inversion Hc; subst. destruct (e_out e) eqn:Eout; try discriminate Hb.
    match type of Hb with (if list_eq_dec _ ?u _ then _ else _) = _ => destruct (list_eq_dec ascii_dec u b) as [->|]; [|discriminate Hb] end. exact (sd_read PU 64 d e d' _ b _ Hs Eo Eout).
  - destruct (hist_one _ _ _ _ _ _ _ _ _ Hh Em) as (e & tr2 & d1 & -> & Eo & Es & Mc & Hs & Hc & Ec). cbn [fst snd call] in Eo, Es, Ec.
    apply map_eq_nil in Mc. subst tr2. inversion Hc; subst.
    rewrite <- Em in Hb. pose proof (T [e] d d' Hh _ Hb) as Z. inversion Z; subst; [exfalso; rewrite Eo in *; discriminate|]. apply sd_idle; auto.
  - destruct (hist_one _ _ _ _ _ _ _ _ _ Hh Em) as (e & tr2 & d1 & -> & Eo & Es & Mc & Hs & Hc & Ec). cbn [fst snd call] in Eo, Es, Ec. rewrite Ec in Hb.
    apply (sd_disconnect PU 64 d e d1 tr2 d' Hs Eo). rewrite <- Mc in Hb. refine (dialogue_same _ _ _ _ _ _ _ _ _ _ _ (Q tr2 d1 d' Hc _ Hb) _ _). same_replies.
Qed.

Fixpoint sc_partsb (l : list deal) (x : dv) : bool :=
  match l with
  | [] => true
  | i :: l' => sc_partb i x && match d_run (sc_driver PU) x (sc_part i) with Ok (y, _) => sc_partsb l' y | _ => false end
  end.
Lemma sc_parts_session : forall l c d tr d', sc_hist PU d tr d' -> map (fun e => (e_op e, e_sch e)) tr = concat (map sc_part l) -> sc_partsb l d = true ->
  fold_left (fun o i => match o with Some c => follows c i | None => None end) l (Some c) <> None ->
  exists c', session (sc_deal PU 64) c d l tr d' c' /\ fold_left (fun o i => match o with Some c => follows c i | None => None end) l (Some c) = Some c'.
Proof.
  induction l as [|i l IH]; intros c d tr d' Hh Em Hb Hf; cbn [map concat sc_partsb fold_left] in *.
  - apply map_eq_nil in Em. subst tr. inversion Hh; subst. exists c. split; [constructor|reflexivity].
  - destruct (hist_part _ _ _ _ _ _ _ _ _ Hh Em) as (tr1 & tr2 & d1 & o2 & -> & M1 & M2 & H1 & H2 & R2).
    rewrite R2, andb_true_iff in Hb. destruct Hb as [B1 B2].
    destruct (follows c i) as [c1|] eqn:Ef; [|exfalso; apply Hf; clear; induction l; [reflexivity|exact IHl]].
    destruct (IH c1 d1 tr2 d' H2 M2 B2 Hf) as (c' & S & E). exists c'. split; [|exact E].
    exact (DrvSession.se_next _ _ _ _ _ _ _ _ _ _ _ Ef (sc_part_deal i d tr1 d1 H1 M1 B1) S).
Qed.
Definition sc_ex_deals : list deal :=
  [Connect []; Write (bs "hello"); Fetch 5; Read (bs "hello"); Idle; Disconnect; Connect []; Write (bs "again"); Disconnect].
Example C79_cc_case : exists d0 tr0 d tr d', sc_built d0 /\ sc_hist PU d0 tr0 d /\ sc_between PU false d /\
  Forall (fun q => length q + 2 <= 64) (sc_opening (host d) (typ d) (port d)) /\
  session (sc_deal PU 64) false d sc_ex_deals tr d' false.
Proof.
  destruct sc_ex_built as (d0 & E0 & Hb).
  set (h := sc_prepare ++ concat (map sc_part sc_ex_deals)).
  assert (Hrun : exists d outs, d_run (sc_driver PU) d0 h = Ok (d, outs)).
  { assert (H : then_ (sc_driver PU) sc_ex h (fun _ => true) = true) by (vm_compute; reflexivity). unfold then_ in H. rewrite E0 in H.
    destruct (d_run (sc_driver PU) d0 h) as [[d outs]|u]; [eauto|discriminate H]. }
  destruct Hrun as (d' & outs & Hrun).
  assert (Hv : sc_valid h) by (apply (validb_ok _ (fun _ => true)); [intros; exact I|vm_compute; reflexivity]).
  destruct (sc_every_run PU d0 h d' outs Hb Hv Hrun) as (tra & Ha & Em & _). unfold h in Em.
  destruct (hist_part _ _ _ _ _ _ _ _ _ Ha Em) as (tr0 & tr & d & o1 & _ & M0 & Mb & H0 & Hb1 & R1).
  assert (C1 : then_ (sc_driver PU) sc_ex sc_prepare (fun x => sc_partsb sc_ex_deals x &&
    forallb (fun q => length q + 2 <=? 64) (sc_opening (host x) (typ x) (port x))) = true) by (vm_compute; reflexivity).
  apply (then_at _ _ _ _ _ _ _ _ _ _ _ E0 R1) in C1. cbv beta in C1. rewrite !andb_true_iff in C1. destruct C1 as (C1 & C3).
  destruct (sc_parts_session sc_ex_deals false d tr d' Hb1 Mb C1) as (c' & S & E); [vm_compute; discriminate|].
  assert (c' = false) as -> by (vm_compute in E; congruence).
  exists d0, tr0, d, tr, d'. splits; auto.
  - refine (proj1 (C79_cc_prepared PU false d0 tr0 d (proj1 (C79_cc_fresh PU d0 Hb _ _)) H0 _)).
    + clear -E0. assert (H : then_ (sc_driver PU) sc_ex [] (fun x => isopen x) = true) by (vm_compute; reflexivity). unfold then_ in H. rewrite E0 in H. exact H.
    + clear -E0. assert (H : then_ (sc_driver PU) sc_ex [] (fun x => negb (mac_request PU (cmac (ext x)))) = true) by (vm_compute; reflexivity). unfold then_ in H. rewrite E0 in H. apply negb_true_iff. exact H.
    + apply Forall_forall. intros x Hx. assert (Hi : In (e_op x, e_sch x) sc_prepare) by (rewrite <- M0; exact (in_map (fun e => (e_op e, e_sch e)) tr0 x Hx)).
      destruct Hi as [Hi|[Hi|[]]]; injection Hi as <- _; reflexivity.
  - apply Forall_forall. intros q Hq. apply Nat.leb_le. exact (proj1 (forallb_forall _ _) C3 q Hq).
Qed.

Print Assumptions C79_cc_fresh.
Print Assumptions C79_cc_prepared.
Print Assumptions C79_cc_deal.
Print Assumptions C79_cc_sessions.
