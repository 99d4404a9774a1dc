(** C79 for the SIM800 driver. *)
From Coq Require Import String Ascii ZArith List Bool Arith Lia ZifyBool ZifyNat.
From Verif Require Import Base QueueSpec LineSpec SerialSpec Ring RingProofs LineRing LineRingProofs Serial SerialProofs
  SerStep TaskMacros CStr CStrProofs Dev DevProofs DevProps SimDev SimProofs SimSpec SimParse SimLog Sym DrvStep DrvCommon DrvRun DrvHist DrvActs DrvHand SimHand DrvSend DrvFetch DrvTalk DrvSession Session HandCheck
  Sim800 Sim8Spec Sim8Proofs Sim8Ctl Sim8CtlIn Sim8Run Sim8Hist Sim8Thms Sim8More Sim8Line Sim8Req Sim8Rest Sim8Stuck Sim8Hand Sim8Send Sim8Fetch Sim8Session Sim7Props Sim8Props Sim8HandProps Sim8SendProps Sim8FetchProps.
From Verif Require Sim7SessionProps.
Import ListNotations.
Local Open Scope nat_scope.
Ltac Zify.zify_post_hook ::= Z.div_mod_to_equations.
Local Notation dv := (dev s8send s8reply simx).
Local Notation ent := (@entry simop).

(** What the program and the module do together, [N] bytes being free in the port's transmit buffer
    whenever run() is called. *)
Inductive s8_deal (P : plat) (N : nat) : dv -> deal -> list ent -> dv -> Prop :=
| sd_connect d e d1 tr d' a ok_first : s8_step P d e d1 -> e_op e = OpConnect -> e_out e = DBool true ->
    20 + length (text (host d)) <= N -> Forall (fun q => length q + 2 <= N) (s8_opening (apn (ext d)) (host d) a (typ d) (port d)) ->
    dialogue (s8_step P) s8_noise N (s8_open_replies a ok_first) d1 tr d' -> s8_deal P N d (Connect a) (e :: tr) d'
| sd_write d e d1 tr d' data n k : s8_step P d e d1 -> e_op e = OpWrite data n -> n <= length data -> e_out e = DCount k -> 0 < k ->
    22 + k <= N -> (Z.of_nat k < 100000)%Z -> length (announcement true k [CR; LF]) <= N ->
    dialogue (s8_step P) s8_noise N s8_send_replies d1 tr d' -> s8_deal P N d (Write (firstn k data)) (e :: tr) d'
| sd_fetch d n ms tr1 d1 tr2 d2 tr3 d3 : dialogue (s8_step P) s8_hum N (s8_fetch_replies P n) d tr1 d1 -> chunks (s8_step P) s8_hum N (s8_header P) d1 ms tr2 d2 ->
    dialogue (s8_step P) s8_hum N (s8_fetched_replies P) d2 tr3 d3 ->
    (0 < n < 2147483648)%Z -> Forall (fun m => (0 < m)%Z) ms -> fold_right Z.add 0%Z ms = n ->
    (Z.of_nat (avail (rbuf d)) + n <= Z.of_nat (rsize (rbuf d)))%Z -> 8 < rxsz (io d) -> s8_deal P N d (Fetch n) (tr1 ++ tr2 ++ tr3) d3
| sd_read d e d' n b k : s8_step P d e d' -> e_op e = OpRead n -> e_out e = DData b k -> s8_deal P N d (Read b) [e] d'
| sd_look d e d' : s8_step P d e d' -> looks (e_op e) = true -> s8_deal P N d Idle [e] d'
| sd_idle d e d' : s8_step P d e d' -> roomy N d e -> hears None e -> s8_deal P N d Idle [e] d'
| sd_disconnect d e d1 tr d' : s8_step P d e d1 -> e_op e = OpDisconnect -> dialogue (s8_step P) s8_noise N s8_close_replies d1 tr d' ->
    s8_deal P N d Disconnect (e :: tr) d'.

(** What it makes the driver send, given APN, host, type and port. *)
Definition s8_speaks (p : cptr * cptr * Z * Z) (i : deal) (q : bytes) : Prop :=
  let '(n, h, t, o) := p in
  match i with
  | Connect a => q = commands (s8_opening n h a t o)
  | Write b => q = announcement true (length b) [CR; LF] ++ b
  | Fetch m => exists ks, q = commands (bs "AT+CIPRXGET=4,0" :: map (fun k => bs "AT+CIPRXGET=2,0," ++ dec k) ks ++ [bs "AT+CIPRXGET=4,0"]) /\
      Forall (fun k => (k <= m)%Z /\ (k <= 1460)%Z) ks
  | Read _ | Idle => q = []
  | Disconnect => q = commands [bs "AT+CIPCLOSE=0"; bs "AT+CIPSHUT"]
  end.

(** Between two of them: connected or not, with nothing under way. *)
Definition s8_between (c : bool) (d : dv) : Prop :=
  (if c then s8_at_ease d else s8_at_rest d) /\ fConnect (fl d) = false /\ fDisc (fl d) = false /\ fData (fl d) = false /\ fLine (fl d) = true /\
  toReceive d = 0%Z /\ toRead d = 0%Z /\ maxrx (ext d) = 1460%Z /\ ring_ok (rbuf d) /\ ring_ok (wbuf d) /\ contents (wbuf d) = [].

(** A new driver, and setting the parameters. *)
Theorem C79_sim8_fresh : forall d, s8_built d -> isopen d = true -> s8_between false d /\ contents (rbuf d) = [].
Proof.
  intros d Hb Ho. pose proof (C52_sim8_fresh d Hb Ho) as R. destruct (s8_built_fresh d Hb) as (_ & _ & _ & _ & _ & _ & E4 & _ & A1 & A2 & A3 & A4 & _ & A5 & A6 & _).
  assert (M : maxrx (ext d) = 1460%Z).
  { destruct Hb as (s & o & rb & wb & rl & ri & rd0 & rt & _ & _ & _ & _ & _ & _ & _ & _ & _ & E). rewrite s8_new_eq in E. exact (Sim7SessionProps.sim_reset_maxrx _ _ _ _ _ _ E). }
  split; [|exact A1]. unfold s8_between. rewrite E4. splits; auto.
Qed.

(** Setting parameters between two sessions, or during one. *)
Theorem C79_sim8_prepared : forall P c d0 tr d, s8_between c d0 -> s8_hist P d0 tr d -> Forall (fun e => s8_sets (e_op e) = true) tr ->
  s8_between c d /\ s8_params d = fold_left s8_given tr (s8_params d0) /\ rbuf d = rbuf d0.
Proof.
  intros P c d0 tr d Hr Hh. induction Hh as [d|d e d1 tr d2 Hs Hh IH]; intros HF; [auto|].
  inversion HF as [|? ? He HF']; subst. pose proof Hs as (_ & _ & _ & E & _). cbn [fold_left].
  assert (H : s8_between c d1 /\ s8_params d1 = s8_given (s8_params d) e /\ rbuf d1 = rbuf d).
  { destruct (looks (e_op e)) eqn:El.
    - rewrite (looked _ _ _ _ _ _ _ _ _ _ _ E El). split; [destruct c; exact Hr|]. unfold s8_given, s8_params. cbn [ext host typ port rbuf set_io]. destruct (e_op e); try discriminate El; split; reflexivity.
    - destruct (called _ _ _ _ _ _ _ E) as (z & x & Ex & ->). unfold s8_given. destruct (e_op e) eqn:Eo; try discriminate He; try discriminate El.
      + cbn [d_call] in Ex. injection Ex as _ <-. split; [destruct c; exact Hr|split; reflexivity].
      + match goal with o : simop |- _ => destruct o end; try discriminate He. cbn [d_call drv_x s8_driver sim_x] in Ex. injection Ex as _ <-. split; [destruct c; exact Hr|split; reflexivity]. }
  destruct H as (H1 & H2 & H3). destruct (IH H1 HF') as (H4 & H5 & H6). split; [exact H4|]. rewrite H5, H2, H6, H3. split; reflexivity.
Qed.

(** A run() at rest. *)
Lemma s8_stays : forall P N d e d', s8_step P d e d' -> roomy N d e -> hears None e -> s8_at_rest d -> 20 <= N -> fConnect (fl d) = false ->
  put (e_ev e) = [] /\ s8_at_rest d' /\ s8_params d' = s8_params d.
Proof.
  intros P N d e d' Hs Hr Hh (Hg & Es & Hw & Hrs & Hdi) HN Hc.
  destruct (s8_ready P N None d e d' _ Hs Hr Hh Hg (f8_none d Hw Hrs) HN) as (dm & d1 & y & HI & G & W & R & S & Pm & _ & (_ & F1 & F2 & _) & _ & _ & Q & Em & -> & Hp).
  unfold s8_machine in Em. cbn [sst set_io] in Em. rewrite S, Es in Em. unfold at_handle_connect in Em. cbn [fl set_io set_cst dev_set_delay set_tsk] in Em. rewrite F1, Hc in Em. apply ok_inj in Em. subst d1.
  cbn [snd] in *. split; [apply Hp, quiet_ioeff; exact Q|]. split; [|exact Pm]. unfold s8_at_rest. split; [exact G|]. split; [cbn; congruence|]. split; [exact W|]. split; [exact R|]. cbn. congruence.
Qed.

Lemma s8_looks : forall P x e x', s8_step P x e x' -> looks (e_op e) = true -> x' = set_io (io x') x /\ put (e_ev e) = [] /\ payload e = [].
Proof.
  intros P x e x' Hs Hl. destruct (s8_look P x e x' Hs Hl) as [A B]. splits; auto.
  apply (call_silent _ _ _ _ _ _ _ _ _ _ _ Hs). destruct (e_op e); try discriminate Hl; reflexivity.
Qed.

Lemma s8_deal_dialogue : forall P N r w x y ps d tr d', dialogue (s8_step P) s8_noise N ps d tr d' ->
  Forall (fun p : option (bytes -> Prop) => match p with Some q => forall L, q L -> s8_harmless L | None => True end) ps ->
  s8_calm r w x y d -> s8_calm r w x y d' /\ payloads tr = [].
Proof.
  intros P N r w x y ps d tr d' Hd HF HK.
  refine (dialogue_keeps _ s8_noise (s8_harmless) N (s8_calm r w x y) _ _ _ ps d tr d' Hd HF HK).
  - intros L HL. apply s8_noise_inv in HL as (L1 & L2 & L3 & L4 & L5 & L6 & L7 & L8). unfold s8_harmless, s8_refused. rewrite L1, L2, L3.
    pose proof (no_prefix (bs "0, CONNECT") (bs " FAIL") L L4) as Y1. pose proof (no_prefix (bs "0, CLOSE") (bs "D") L L7) as Y2. pose proof (no_prefix (bs "+CDNSGIP") (bs ": 0") L L5) as Y3.
    splits; auto.
  - intros z e z' Hs Hl Hz. destruct (s8_look P z e z' Hs Hl) as [-> _]. split; [apply s8_calm_io; exact Hz|].
    apply (call_silent _ _ _ _ _ _ _ _ _ _ _ Hs). destruct (e_op e); try discriminate Hl; reflexivity.
  - intros z e z' Hs Hr Hh Hz. exact (s8_calm_run P N r w x y z e z' Hs Hr Hh Hz).
Qed.

Lemma s8_reply_harmless : forall w L, In w ["OK"; ">"; "0, SEND OK"; "0, CONNECT OK"; "0, CLOSE OK"; "SHUT OK"; "+CDNSGIP: 1"]%string -> prefixb (bs w) L = true -> s8_harmless L.
Proof.
  intros w L Hw HL. unfold s8_harmless. apply prefixb_spec in HL as [t ->]. cbn [In] in Hw. repeat destruct Hw as [<-|Hw]; try contradiction; splits; reflexivity.
Qed.
Lemma s8_noise_harmless : forall L, s8_noise L -> s8_harmless L.
Proof.
  intros L HL. apply s8_noise_inv in HL as (L1 & L2 & L3 & L4 & L5 & L6 & L7 & L8). unfold s8_harmless, s8_refused. rewrite L1, L2, L3.
  pose proof (no_prefix (bs "0, CONNECT") (bs " FAIL") L L4) as Y1. pose proof (no_prefix (bs "0, CLOSE") (bs "D") L L7) as Y2. pose proof (no_prefix (bs "+CDNSGIP") (bs ": 0") L L5) as Y3.
  splits; auto.
Qed.

Ltac meek := cbn [app repeat]; repeat (apply Forall_cons; [first [exact I|
  let L := fresh in let HL := fresh in intros L HL; first [apply (s8_reply_harmless "OK"); [cbn; tauto|exact HL]|apply (s8_reply_harmless ">"); [cbn; tauto|exact HL]
    |apply (s8_reply_harmless "0, SEND OK"); [cbn; tauto|exact HL]|apply (s8_reply_harmless "0, CONNECT OK"); [cbn; tauto|exact HL]|apply (s8_reply_harmless "0, CLOSE OK"); [cbn; tauto|exact HL]
    |apply (s8_reply_harmless "SHUT OK"); [cbn; tauto|exact HL]|apply s8_noise_harmless; exact (proj1 HL)|apply (s8_reply_harmless "+CDNSGIP: 1"); [cbn; tauto|exact (proj1 (proj1 HL))]]]|]); apply Forall_nil.

Lemma s8_between_calm : forall c d, s8_between c d -> s8_calm (rbuf d) (Some (wbuf d)) false false d.
Proof.
  intros c d (R & F1 & F2 & F3 & F4 & F5 & F6 & Fm & F7 & F8 & F9). pose proof (empty_avail _ F8 F9) as F10.
  assert (G : s8_going d /\ (sst d = S8Connected \/ sst d = S8NotConnected) /\ rst d = R8Ok) by (destruct c; [destruct R as (R1 & _ & _ & R2 & _ & R3)|destruct R as (R1 & R2 & _ & R3 & _)]; auto).
  destruct G as [(G1 & G2 & G3 & _) [G G4]]. unfold s8_calm. splits; auto; try (rewrite G4; discriminate); try (destruct G as [->| ->]; discriminate).
  intros v Ev. injection Ev as <-. splits; auto. destruct G as [->| ->]; discriminate.
Qed.

(** One of them. *)
Theorem C79_sim8_deal : forall P N c i c1 d tr d1, follows c i = Some c1 -> s8_deal P N d i tr d1 -> s8_between c d -> 40 <= N ->
  s8_between c1 d1 /\ s8_speaks (s8_params d) i (sent tr) /\
  reads i ++ contents (rbuf d1) = contents (rbuf d) ++ payloads tr /\ Z.of_nat (length (payloads tr)) = fetched i /\ s8_params d1 = s8_params d.
Proof.
  intros P N c i c1 d tr d1 Hf Hd HB HN. pose proof (s8_between_calm c d HB) as HC. pose proof HB as (R & F1 & F2 & F3 & F4 & F5 & F6 & Fm & F7 & F8 & F9). pose proof (empty_avail _ F8 F9) as F10. unfold s8_speaks, s8_params at 1.
  destruct Hd as [d e d1 tr d' a' ok Hs Eo Eb HO1 HO Hd|d e d1 tr d' data n k Hs Eo Hn Ek Hk H1 H2 H3 Hd|d n ms tr1 d1 tr2 d2 tr3 d3 Hd1 Hd2 Hd3 Hn Hms Hsum Hfit Hrx|d e d' n b k Hs Eo Ek|d e d' Hs Hl|d e d' Hs Hr Hh|d e d1 tr d' Hs Eo Hd].
  - destruct c; [discriminate Hf|]. injection Hf as <-.
    destruct (C52_sim8_opens P N a' ok d e d1 tr d' R Hs Eo Eb Hd HO1 HO) as (A1 & A2 & A3 & A4).
    destruct (call_silent _ _ _ _ _ _ _ _ _ _ _ Hs ltac:(rewrite Eo; reflexivity)) as [Hp Hq].
    assert (K : s8_calm (rbuf d) (Some (wbuf d)) true false d1).
    { pose proof Hs as (_ & _ & _ & E & _). rewrite Eo in E. destruct (C31_connect_sim800 P _ _ _ _ _ E) as (b & Ebo & _ & Ed). rewrite Eb in Ebo. injection Ebo as <-. rewrite Ed.
      destruct HC as (K1 & K2 & K3 & K4 & K5 & K6 & K7 & K8 & K9 & K10 & K10' & Kx & K11 & K12 & K13 & K13' & K14 & K15 & K16). unfold s8_calm. cbn. splits; auto. left. split; [reflexivity|apply R]. }
    destruct (s8_deal_dialogue P N (rbuf d) (Some (wbuf d)) true false _ d1 tr d' Hd) as [K2 Hpl]; [|exact K|].
    { unfold s8_open_replies. destruct ok; meek. }
    destruct K2 as (_ & _ & _ & C1 & C2 & C3 & C4 & C5 & _ & _ & _ & Cm & _ & _ & _ & _ & C6 & C7 & C8). destruct (C6 _ eq_refl) as (W1 & W2 & W3).
    rewrite payloads_cons, Hp, Hpl, sent_cons, Hq, A1, C5. cbn [app reads fetched length]. rewrite app_nil_r. splits; auto.
    unfold s8_between. rewrite C5, W1. splits; auto; [destruct C7 as [[_ C7]|C7]; [|exact C7]; exfalso; destruct A3 as (_ & _ & _ & A3 & _); congruence|destruct C8 as [(C8 & _)|C8]; [discriminate C8|exact C8]].
  - destruct c; [|discriminate Hf]. injection Hf as <-.
    pose proof Hs as (_ & _ & _ & E & _). rewrite Eo in E. destruct (C31_write _ _ _ _ _ _ _ _ _ _ _ _ F8 Hn E) as (Ek2 & Ec & Eok & Ed). rewrite Ek in Ek2. injection Ek2 as Ek2.
    assert (Hl : length (firstn k data) = k) by (apply firstn_length_le; destruct (cst d); lia).
    destruct (C70_sim8_sends P N d e d1 tr d' data n k R F2 F3 F8 F9 Hs Eo Hn Ek Hk Hd H1 H2 H3) as (A1 & A2 & A3 & A4 & A5 & A6 & A7 & A8 & A9).
    destruct (call_silent _ _ _ _ _ _ _ _ _ _ _ Hs ltac:(rewrite Eo; reflexivity)) as [Hp Hq].
    assert (K : s8_calm (rbuf d) None false false d1).
    { rewrite Ed. destruct HC as (K1 & K2 & K3 & K4 & K5 & K6 & K7 & K8 & K9 & K10 & K10' & Kx & K11 & K12 & K13 & K13' & K14 & K15 & K16). unfold s8_calm. cbn. splits; auto. discriminate. }
    destruct (s8_deal_dialogue P N (rbuf d) None false false _ d1 tr d' Hd) as [K2 Hpl]; [|exact K|].
    { unfold s8_send_replies. meek. }
    destruct K2 as (_ & _ & _ & C1 & C2 & C3 & C4 & C5 & _ & _ & _ & Cm & _ & _ & _ & _ & C6 & C7 & C8).
    rewrite payloads_cons, Hp, Hpl, sent_cons, Hq, A1, C5. cbn [app reads fetched length]. rewrite app_nil_r, Hl.  splits; auto.
    unfold s8_between. rewrite C5. splits; auto. destruct C7 as [[C7 _]|C7]; [discriminate C7|exact C7].
  - destruct c; [|discriminate Hf]. injection Hf as <-.
    assert (HV : s8_vacant d) by (unfold s8_vacant; splits; auto).
    destruct (C75_sim8_fetches P N n ms d tr1 d1 tr2 d2 tr3 d3 HV Hd1 Hd2 Hd3 Hn Hms Hsum Hfit Hrx HN) as (ks & A1 & A2 & A3 & A4 & A5 & A6 & A7).
    destruct A6 as (B1 & B2 & B3 & B4 & B5 & B6 & B7 & B8).
    assert (U : s8_busy d3).
    { assert (Q : forall L, s8_hum L -> s8_refused L = false /\ prefixb (bs "0, CLOSED") L = false) by (intros L HL; apply s8_hum_inv in HL as (_ & Q1 & _ & _ & _ & Q2); auto).
      assert (Ql : forall x e x', s8_step P x e x' -> looks (e_op e) = true -> s8_busy x -> s8_busy x') by (intros x e x' Hs Hl Hx; destruct (s8_look P x e x' Hs Hl) as [-> _]; exact Hx).
      assert (Qw : forall w L, In w ["OK"; "+CIPRXGET: 1,0"; "+CIPRXGET: 4,0,"; "+CIPRXGET: 2,0,"]%string -> prefixb (bs w) L = true -> s8_refused L = false /\ prefixb (bs "0, CLOSED") L = false).
      { intros w L Hw HL. apply prefixb_spec in HL as [t ->]. cbn [In] in Hw. repeat destruct Hw as [<-|Hw]; try contradiction; split; reflexivity. }
      apply (dialogue_kind _ _ _ N s8_busy Q Ql (s8_busy_run P N) _ _ _ _ Hd3).
      { apply Forall_cons; [exact I|]. apply Forall_cons; [intros L [HL _]; apply (Qw "+CIPRXGET: 4,0,"%string); [cbn; tauto|exact HL]|]. apply Forall_cons; [intros L HL; apply (Qw "OK"%string); [cbn; tauto|exact HL]|]. apply Forall_nil. }
      apply (chunks_kind _ _ _ N _ s8_busy Q Ql (s8_busy_run P N)) with (3 := Hd2).
      { intro m. intros L [HL _]. apply (Qw "+CIPRXGET: 2,0,"%string); [cbn; tauto|exact HL]. }
      { intros L HL. apply (Qw "OK"%string); [cbn; tauto|exact HL]. }
      apply (dialogue_kind _ _ _ N s8_busy Q Ql (s8_busy_run P N) _ _ _ _ Hd1).
      { apply Forall_cons; [intros L HL; apply (Qw "+CIPRXGET: 1,0"%string); [cbn; tauto|exact HL]|]. apply Forall_cons; [exact I|]. apply Forall_cons; [intros L [HL _]; apply (Qw "+CIPRXGET: 4,0,"%string); [cbn; tauto|exact HL]|]. apply Forall_cons; [intros L HL; apply (Qw "OK"%string); [cbn; tauto|exact HL]|]. apply Forall_nil. }
      destruct R as ((R1 & R2 & R3 & _) & _ & R4 & R5 & _ & R6). unfold s8_busy. rewrite R5, R6. splits; auto; try discriminate; cbn; lia. }
    rewrite A1, A4. cbn [reads fetched app]. apply pair_eq in A7 as [A7 D6]. apply pair_eq in A7 as [A7 D5]. apply pair_eq in A7 as [A7 D4]. apply pair_eq in A7 as [A7 D3]. apply pair_eq in A7 as [D1 D2].
    splits; auto.
    + unfold s8_between. rewrite D1, D2. splits; auto. apply U.
    + exists ks. split; [reflexivity|]. rewrite Fm in A3. exact A3.
    + unfold s8_params. rewrite D1, D3, D4, D5. reflexivity.
  - pose proof Hs as (_ & _ & _ & E & _). rewrite Eo in E.
    destruct (call_silent _ _ _ _ _ _ _ _ _ _ _ Hs ltac:(rewrite Eo; reflexivity)) as [Hp Hq].
    destruct (read_keeps _ _ _ _ _ _ _ _ _ _ _ F7 E) as (Eb & Ec & Eok & Ed). rewrite Ek in Eb. injection Eb as -> _.
    assert (c1 = c) as -> by (destruct c; injection Hf as <-; reflexivity).
    cbn [payloads map concat sent]. rewrite Hp, Hq, Ec. cbn [app reads fetched length]. rewrite app_nil_r, firstn_skipn. splits; auto; [|rewrite Ed; reflexivity].
    rewrite Ed. rewrite Ed in Eok. unfold s8_between. destruct c; splits; auto.
  - destruct (s8_look P d e d' Hs Hl) as [Ed Hq].
    destruct (call_silent _ _ _ _ _ _ _ _ _ _ _ Hs) as [Hp _]; [destruct (e_op e); try discriminate Hl; reflexivity|].
    assert (c1 = c) as -> by (destruct c; injection Hf as <-; reflexivity).
    cbn [payloads map concat sent]. rewrite Hp, Hq, Ed. cbn [app reads fetched length]. rewrite app_nil_r. splits; auto.
  - assert (c1 = c) as -> by (destruct c; injection Hf as <-; reflexivity).
    destruct (s8_calm_run P N _ _ _ _ d e d' Hs Hr (or_introl Hh) HC) as [K2 Hp].
    destruct K2 as (_ & _ & _ & C1 & C2 & C3 & C4 & C5 & _ & _ & _ & Cm & _ & _ & _ & _ & C6 & C7 & C8). destruct (C6 _ eq_refl) as (W1 & W2 & W3).
    destruct C7 as [[C7 _]|C7]; [discriminate C7|]. destruct C8 as [[C8 _]|C8]; [discriminate C8|].
    assert (A : put (e_ev e) = [] /\ (if c then s8_at_ease d' else s8_at_rest d') /\ s8_params d' = s8_params d).
    { destruct c.
      - destruct R as (R1 & R2 & R3 & R4 & R5 & R6). destruct (s8_settles P N None d e d' _ Hs Hr Hh R1 (f8_none d R5 R6) ltac:(lia) R4 F10 F3 F2 R3) as (A1 & A2 & A3 & A4 & A5 & A6 & A7 & A8 & A9 & _).
        splits; auto. unfold s8_at_ease, ip_is_connected. rewrite A3, A9. splits; auto.
      - destruct (s8_stays P N d e d' Hs Hr Hh R ltac:(lia) F1) as (A1 & A2 & A3). splits; auto. }
    destruct A as (A1 & A2 & A3). cbn [payloads map concat sent]. rewrite Hp, A1, C5. cbn [app reads fetched length]. rewrite app_nil_r. splits; auto.
    unfold s8_between. rewrite C5, W1. destruct c; splits; auto.
  - destruct c; [|discriminate Hf]. injection Hf as <-. pose proof R as (R1 & R2 & R3 & R4 & R5 & R6).
    destruct (C52_sim8_closes P N d e d1 tr d' R F3 F10 Hs Eo Hd ltac:(lia)) as (A1 & A2 & A3 & A4).
    destruct (call_silent _ _ _ _ _ _ _ _ _ _ _ Hs ltac:(rewrite Eo; reflexivity)) as [Hp Hq].
    pose proof Hs as (_ & _ & _ & E & _). rewrite Eo in E. apply C31_disconnect in E. assert (Hi : ip_is_idle d = false) by (unfold ip_is_idle, ip_is_connected in *; destruct (cst d); congruence). rewrite Hi in E.
    assert (K : s8_calm (rbuf d) (Some (wbuf d)) false true d1).
    { rewrite E. destruct HC as (K1 & K2 & K3 & K4 & K5 & K6 & K7 & K8 & K9 & K10 & K10' & Kx & K11 & K12 & K13 & K13' & K14 & K15 & K16). unfold s8_calm. cbn. splits; auto; [intro Z; congruence|]. left. splits; auto. discriminate. }
    unfold s8_close_replies in Hd.
    destruct (dialogue_first _ _ _ _ _ _ _ (s8_looks P) Hd) as (tr1 & e1 & tr2 & y & x2 & Et & T1 & T2 & Hs1 & Hr1 & Hh1 & Hd1). remember (set_io y d1) as x1 eqn:Ex.
    assert (Hx1 : s8_calm (rbuf d) (Some (wbuf d)) false true x1) by (rewrite Ex; exact K).
    destruct (s8_calm_run P N _ _ _ _ x1 e1 x2 Hs1 Hr1 (or_introl Hh1) Hx1) as [K2 Hp1].
    assert (Hw1 : wait x1 = None /\ rst x1 = R8Ok) by (rewrite Ex, E; auto).
    destruct (s8_leave P N x1 e1 x2 (s8_address x1) Hs1 Hr1 Hh1) as (_ & _ & L1 & _ & _ & _ & _ & _ & L2); try exact (f8_none x1 (proj1 Hw1) (proj2 Hw1)); try (rewrite Ex, E; (exact R1 || exact R5 || exact R4 || exact R3 || exact F3 || exact F10 || reflexivity)); [lia|].
    assert (K3 : s8_calm (rbuf d) (Some (wbuf d)) false false x2).
    { destruct K2 as (M1 & M2 & M3 & M4 & M5 & M6 & M7 & M8 & M9 & M10 & M10' & Mx & M11 & M12 & M13 & M13' & M14 & M15 & M16). unfold s8_calm. splits; auto. }
    destruct (s8_deal_dialogue P N (rbuf d) (Some (wbuf d)) false false _ x2 tr2 d' Hd1) as [K4 Hpl]; [|exact K3|].
    { meek. }
    destruct K4 as (_ & _ & _ & C1 & C2 & C3 & C4 & C5 & _ & _ & _ & Cm & _ & _ & _ & _ & C6 & C7 & C8). destruct (C6 _ eq_refl) as (W1 & W2 & W3).
    rewrite payloads_cons, Hp, sent_cons, Hq, A1, C5. assert (Hpt : payloads tr = []) by (rewrite Et, payloads_app, T2, payloads_cons, Hp1, Hpl; reflexivity).
    rewrite Hpt. cbn [app reads fetched length]. rewrite app_nil_r. splits; auto.
    unfold s8_between. rewrite C5, W1. splits; auto; [destruct C7 as [[C7 _]|C7]; [discriminate C7|exact C7]|destruct C8 as [(C8 & _)|C8]; [discriminate C8|exact C8]].
Qed.

(** Any number of them. *)
Theorem C79_sim8_sessions : forall P N c d l tr d' c', session (s8_deal P N) c d l tr d' c' -> s8_between c d -> 40 <= N ->
  s8_between c' d' /\ s8_params d' = s8_params d /\
  (exists ss, sent tr = concat ss /\ Forall2 (s8_speaks (s8_params d)) l ss) /\
  concat (map reads l) ++ contents (rbuf d') = contents (rbuf d) ++ payloads tr /\
  Z.of_nat (length (payloads tr)) = fold_right Z.add 0%Z (map fetched l).
Proof.
  intros P N c d l tr d' c' Hs HB HN.
  destruct (session_all (s8_deal P N) (fun c x => s8_between c x /\ s8_params x = s8_params d) (s8_speaks (s8_params d))) with (2 := Hs) as ((A1 & A2) & A3 & A4 & A5); auto.
  clear - HN. intros c i c1 x tr x1 Hf Hd [HB Hp].
  destruct (C79_sim8_deal P N c i c1 x tr x1 Hf Hd HB HN) as (A1 & A2 & A3 & A4 & A5). rewrite Hp in A2. splits; auto. congruence.
Qed.

(** Such sessions happen: scripts for what the program and the module do, and checks by computation. *)
Definition s8_part (i : deal) : @script simop :=
  match i with
  | Connect _ => call OpConnect :: s8_answers
  | Write w => call (OpWrite w (length w)) :: s8_consents
  | Fetch _ => s8_reports ++ call (OpRun true) :: s8_gives ++ s8_ends_fetch
  | Read b => [call (OpRead (length b))]
  | Idle => [call (OpRun true)]
  | Disconnect => call OpDisconnect :: s8_ends
  end.
Definition s8_partb (i : deal) (x : dv) : bool :=
  match i with
  | Connect a => if list_eq_dec ascii_dec a (bs "1.2.3.4") then match d_step (s8_driver PA) OpConnect [] x with
      Ok (DBool true, _, y) => (20 + length (text (host x)) <=? 64) && forallb (fun c => length c + 2 <=? 64) (s8_opening (apn (ext x)) (host x) a (typ x) (port x)) &&
        talks (s8_driver PA) (silentb s8_quiet_words) (fun _ => true) 64 s8_open_check s8_answers y | _ => false end else false
  | Write w => match d_step (s8_driver PA) (OpWrite w (length w)) [] x with
      Ok (DCount k, _, y) => (k =? length w) && (0 <? k) && (22 + k <=? 64) && (Z.of_nat k <? 100000)%Z && (length (announcement true k [CR; LF]) <=? 64) &&
        talks (s8_driver PA) (silentb s8_quiet_words) (fun _ => true) 64 s8_send_check s8_consents y | _ => false end
  | Fetch n => (n =? 5)%Z && (Z.of_nat (avail (rbuf x)) + n <=? Z.of_nat (rsize (rbuf x)))%Z && (8 <? rxsz (io x)) &&
      s8_talk [Some (prefixb (bs "+CIPRXGET: 1,0")); None; countedb PA (bs "+CIPRXGET: 4,0,") 5; Some (prefixb (bs "OK"))] s8_reports x &&
      match d_run (s8_driver PA) x s8_reports with Ok (y, _) => s8_talk [None] (runs_ 1) y &&
        match d_step (s8_driver PA) (OpRun true) [] y with Ok (_, _, z) => s8_talk [countedb PA (bs "+CIPRXGET: 2,0,") 5; Some (prefixb (bs "OK"))] s8_gives z &&
          match d_run (s8_driver PA) z s8_gives with Ok (w, _) => s8_talk [None; countedb PA (bs "+CIPRXGET: 4,0,") 0; Some (prefixb (bs "OK"))] s8_ends_fetch w | _ => false end
        | _ => false end | _ => false end
  | Read b => match d_step (s8_driver PA) (OpRead (length b)) [] x with Ok (DData b' _, _, _) => if list_eq_dec ascii_dec b' b then true else false | _ => false end
  | Idle => s8_talk [None] [call (OpRun true)] x
  | Disconnect => match d_step (s8_driver PA) OpDisconnect [] x with
      Ok (_, _, y) => talks (s8_driver PA) (silentb s8_quiet_words) (fun _ => true) 64 s8_close_check s8_ends y | _ => false end
  end.
Lemma s8_part_deal : forall i d tr d', s8_hist PA d tr d' -> map (fun e => (e_op e, e_sch e)) tr = s8_part i -> s8_partb i d = true -> s8_deal PA 64 d i tr d'.
Proof.
  intros i d tr d' Hh Em Hb.
  assert (Hpl : forall d : dv, true = true -> plain_lines (s8_shape PA) d) by (intros x _; split; [exact whole_ends|intros L H; exact H]).
  pose proof (fun tr d d' Hc ps H => talks_dialogue (s8_driver PA) (s8_shape PA) s8_all s8_goodx s8_hum (silentb s8_hum_words) (fun L => proj1 (silentb_ok _ L)) (fun _ => true) Hpl 64 tr d d' Hc ps H) as T.
  pose proof (fun tr d d' Hc ps H => talks_dialogue (s8_driver PA) (s8_shape PA) s8_all s8_goodx s8_noise (silentb s8_quiet_words) (fun L => proj1 (silentb_ok _ L)) (fun _ => true) Hpl 64 tr d d' Hc ps H) as Q.
  destruct i as [a|w|n|b| |]; unfold s8_part in Em; cbn [s8_partb] in Hb.
  - destruct (list_eq_dec ascii_dec a (bs "1.2.3.4")) as [->|]; [|discriminate Hb]. destruct (hist_one _ _ _ _ _ _ _ _ _ Hh Em) as (e & tr2 & d1 & -> & Eo & Es & Mc & Hs & Hc & Ec). cbn [fst snd call] in Eo, Es, Ec. rewrite Ec in Hb.
    destruct (e_out e) as [|b| | | |] eqn:Eout; try discriminate Hb. destruct b; [|discriminate Hb]. rewrite !andb_true_iff in Hb. destruct Hb as ((B1 & B2) & B3). apply Nat.leb_le in B1.
    apply (sd_connect PA 64 d e d1 tr2 d' _ true Hs Eo Eout B1); [apply Forall_forall; intros c Hc0; apply Nat.leb_le; exact (proj1 (forallb_forall _ _) B2 c Hc0)|].
    rewrite <- Mc in B3. refine (dialogue_same _ _ _ _ _ _ _ _ _ _ _ (Q tr2 d1 d' Hc _ B3) _ _).
    repeat first [apply Forall2_cons; [intro; apply s8_own_addressb_ok|]|apply Forall2_cons; [exact I|]|apply Forall2_cons; [intro; apply resolvedb_ok|]|apply Forall2_cons; [intro; apply iff_refl|]]; apply Forall2_nil.
  - destruct (hist_one _ _ _ _ _ _ _ _ _ Hh Em) as (e & tr2 & d1 & -> & Eo & Es & Mc & Hs & Hc & Ec). cbn [fst snd call] in Eo, Es, Ec. rewrite Ec in Hb.
    destruct (e_out e) as [| |k| | |] eqn:Eout; try discriminate Hb. rewrite !andb_true_iff in Hb. destruct Hb as (((((B1 & B2) & B3) & B4) & B5) & B6).
    apply Nat.eqb_eq in B1. apply Nat.ltb_lt in B2. apply Nat.leb_le in B3. apply Z.ltb_lt in B4. apply Nat.leb_le in B5. subst k.
    replace (Write w) with (Write (firstn (length w) w)) by (rewrite firstn_all; reflexivity).
    apply (sd_write PA 64 d e d1 tr2 d' w (length w) (length w)); auto.
    rewrite <- Mc in B6. refine (dialogue_same _ _ _ _ _ _ _ _ _ _ _ (Q tr2 d1 d' Hc _ B6) _ _). same_replies.
  - destruct (hist_part _ _ _ _ _ _ _ _ _ Hh Em) as (tr1 & trc & d1 & o2 & -> & M1 & Mc & H1 & Hc1 & R2).
    destruct (hist_one _ _ _ _ _ _ _ _ _ Hc1 Mc) as (e & trd & d1' & -> & Eo & Es & Md & Hs & Hd1 & Ec). cbn [fst snd call] in Eo, Es, Ec.
    destruct (hist_part _ _ _ _ _ _ _ _ _ Hd1 Md) as (tr2 & tr3 & d2 & o3 & -> & M2 & M3 & H2 & H3 & R3).
    rewrite R2, Ec, R3, !andb_true_iff in Hb.
    destruct Hb as ((((C1 & C2) & C3) & C4) & C5 & C6 & C7). apply Z.eqb_eq in C1. subst n. apply Z.leb_le in C2. apply Nat.ltb_lt in C3.
    replace (e :: tr2 ++ tr3) with ((e :: tr2 ++ []) ++ tr3) by (rewrite app_nil_r; reflexivity).
    apply (sd_fetch PA 64 d 5 [5%Z] tr1 d1 (e :: tr2 ++ []) d2 tr3 d'); auto; try lia; try (repeat constructor; fail).
    + rewrite <- M1 in C4. refine (dialogue_same _ _ _ _ _ _ _ _ _ _ _ (T tr1 d d1 H1 _ C4) _ _). count_replies.
    + assert (Hh2 : hears None e /\ roomy 64 d1 e).
      { assert (Mx : runs_ 1 = map (fun e => (e_op e, e_sch e)) [e]) by (cbn [map]; rewrite Eo, Es; reflexivity). rewrite Mx in C5.
        pose proof (T [e] d1 d1' (hist_cons _ _ _ _ _ _ _ _ _ Hs (hist_nil _ _ _ _ _)) _ C5) as Z. inversion Z; subst; auto. exfalso. rewrite Eo in *. discriminate. }
      destruct Hh2 as [Hh2 Hr]. apply (ch_cons _ _ _ _ _ e d1' _ _ _ d2); auto; [|constructor].
      rewrite <- M2 in C6. refine (dialogue_same _ _ _ _ _ _ _ _ _ _ _ (T tr2 d1' d2 H2 _ C6) _ _). count_replies.
    + rewrite <- M3 in C7. refine (dialogue_same _ _ _ _ _ _ _ _ _ _ _ (T tr3 d2 d' H3 _ C7) _ _). count_replies.
  - destruct (hist_one _ _ _ _ _ _ _ _ _ Hh Em) as (e & tr2 & d1 & -> & Eo & Es & Mc & Hs & Hc & Ec). cbn [fst snd call] in Eo, Es, Ec. rewrite Ec in Hb.
    apply map_eq_nil in Mc. subst tr2. inversion Hc; subst. destruct (e_out e) eqn:Eout; try discriminate Hb.
    match type of Hb with (if list_eq_dec _ ?u _ then _ else _) = _ => destruct (list_eq_dec ascii_dec u b) as [->|]; [|discriminate Hb] end. exact (sd_read PA 64 d e d' _ b _ Hs Eo Eout).
  - destruct (hist_one _ _ _ _ _ _ _ _ _ Hh Em) as (e & tr2 & d1 & -> & Eo & Es & Mc & Hs & Hc & Ec). cbn [fst snd call] in Eo, Es, Ec.
    apply map_eq_nil in Mc. subst tr2. inversion Hc; subst.
    rewrite <- Em in Hb. pose proof (T [e] d d' Hh _ Hb) as Z. inversion Z; subst; [exfalso; rewrite Eo in *; discriminate|]. apply sd_idle; auto.
  - destruct (hist_one _ _ _ _ _ _ _ _ _ Hh Em) as (e & tr2 & d1 & -> & Eo & Es & Mc & Hs & Hc & Ec). cbn [fst snd call] in Eo, Es, Ec. rewrite Ec in Hb.
    apply (sd_disconnect PA 64 d e d1 tr2 d' Hs Eo). rewrite <- Mc in Hb. refine (dialogue_same _ _ _ _ _ _ _ _ _ _ _ (Q tr2 d1 d' Hc _ Hb) _ _). same_replies.
Qed.

Fixpoint s8_partsb (l : list deal) (x : dv) : bool :=
  match l with
  | [] => true
  | i :: l' => s8_partb i x && match d_run (s8_driver PA) x (s8_part i) with Ok (y, _) => s8_partsb l' y | _ => false end
  end.
Lemma s8_parts_session : forall l c d tr d', s8_hist PA d tr d' -> map (fun e => (e_op e, e_sch e)) tr = concat (map s8_part l) -> s8_partsb l d = true ->
  fold_left (fun o i => match o with Some c => follows c i | None => None end) l (Some c) <> None ->
  exists c', session (s8_deal PA 64) c d l tr d' c' /\ fold_left (fun o i => match o with Some c => follows c i | None => None end) l (Some c) = Some c'.
Proof.
  induction l as [|i l IH]; intros c d tr d' Hh Em Hb Hf; cbn [map concat s8_partsb fold_left] in *.
  - apply map_eq_nil in Em. subst tr. inversion Hh; subst. exists c. split; [constructor|reflexivity].
  - destruct (hist_part _ _ _ _ _ _ _ _ _ Hh Em) as (tr1 & tr2 & d1 & o2 & -> & M1 & M2 & H1 & H2 & R2).
    rewrite R2, andb_true_iff in Hb. destruct Hb as [B1 B2].
    destruct (follows c i) as [c1|] eqn:Ef; [|exfalso; apply Hf; clear; induction l; [reflexivity|exact IHl]].
    destruct (IH c1 d1 tr2 d' H2 M2 B2 Hf) as (c' & S & E). exists c'. split; [|exact E].
    exact (DrvSession.se_next _ _ _ _ _ _ _ _ _ _ _ Ef (s8_part_deal i d tr1 d1 H1 M1 B1) S).
Qed.
Definition s8_ex_deals : list deal :=
  [Connect (bs "1.2.3.4"); Write (bs "hello"); Fetch 5; Read (bs "hello"); Idle; Disconnect; Connect (bs "1.2.3.4"); Write (bs "again"); Disconnect].
Example C79_sim8_case : exists d0 tr0 d tr d', s8_built d0 /\ s8_hist PA d0 tr0 d /\ s8_between false d /\
  session (s8_deal PA 64) false d s8_ex_deals tr d' false.
Proof.
  destruct s8_ex_built as (d0 & E0 & Hb).
  set (h := s8_prepare ++ concat (map s8_part s8_ex_deals)).
  assert (Hrun : exists d outs, d_run (s8_driver PA) d0 h = Ok (d, outs)).
  { assert (H : then_ (s8_driver PA) s8_ex h (fun _ => true) = true) by (vm_compute; reflexivity). unfold then_ in H. rewrite E0 in H.
    destruct (d_run (s8_driver PA) d0 h) as [[d outs]|u]; [eauto|discriminate H]. }
  destruct Hrun as (d' & outs & Hrun).
  assert (Hv : s8_valid h). { apply (validb_ok _ (fun x => match x with SetApn p => strb p | _ => true end)); [intros [] H; try exact I; apply strb_ok, H|vm_compute; reflexivity]. }
  destruct (s8_every_run PA d0 h d' outs Hb Hv Hrun) as (tra & Ha & Em & _). unfold h in Em.
  destruct (hist_part _ _ _ _ _ _ _ _ _ Ha Em) as (tr0 & tr & d & o1 & _ & M0 & Mb & H0 & Hb1 & R1).
  assert (C1 : then_ (s8_driver PA) s8_ex s8_prepare (fun x => s8_partsb s8_ex_deals x) = true) by (vm_compute; reflexivity).
  apply (then_at _ _ _ _ _ _ _ _ _ _ _ E0 R1) in C1. cbv beta in C1.
  destruct (s8_parts_session s8_ex_deals false d tr d' Hb1 Mb C1) as (c' & S & E); [vm_compute; discriminate|].
  assert (c' = false) as -> by (vm_compute in E; congruence).
  exists d0, tr0, d, tr, d'. splits; auto.
  refine (proj1 (C79_sim8_prepared PA false d0 tr0 d (proj1 (C79_sim8_fresh d0 Hb _)) H0 _)).
  - clear -E0. assert (H : then_ (s8_driver PA) s8_ex [] (fun x => isopen x) = true) by (vm_compute; reflexivity). unfold then_ in H. rewrite E0 in H. exact H.
  - apply Forall_forall. intros x Hx. assert (Hi : In (e_op x, e_sch x) s8_prepare) by (rewrite <- M0; exact (in_map (fun e => (e_op e, e_sch e)) tr0 x Hx)).
    destruct Hi as [Hi|[Hi|[]]]; injection Hi as <- _; reflexivity.
Qed.

Print Assumptions C79_sim8_fresh.
Print Assumptions C79_sim8_prepared.
Print Assumptions C79_sim8_deal.
Print Assumptions C79_sim8_sessions.
