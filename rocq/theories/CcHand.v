(** The CC1352P7 driver opens and closes a connection if the module answers. *)
From Coq Require Import String Ascii ZArith List Bool Arith Lia ZifyBool ZifyNat.
From Verif Require Import Base QueueSpec LineSpec SerialSpec Ring RingProofs LineRing LineRingProofs Serial SerialProofs
  SerStep TaskMacros CStr CStrProofs Dev DevProofs SimDev SimProofs SimSpec SimParse SimLog Sym DrvStep DrvCommon DrvRun DrvHist DrvActs DrvStuck DrvHand
  Espressif Cc1352 CcSpec CcProofs CcCtl CcCtlIn CcRun AtLine CcHist CcThms CcMore CcLine CcReq CcRest CcStuck.
Import ListNotations.
Local Open Scope nat_scope.
Ltac Zify.zify_post_hook ::= Z.div_mod_to_equations.
Local Notation dv := (dev ccsend ccreply ccx).
Local Notation ent := (@entry ccop).
Local Notation olabC P := (olab rc_ok (sc_says P) sc_tail sc_insend false).

(** In operation, with no request for the signal strength or the MAC address
    pending and no special reply expected. *)
Definition sc_going (P : plat) (d : dv) : Prop :=
  isopen d = true /\ fReset (fl d) = false /\ fLock (fl d) = false /\ rst d = RCOk /\ rssi d <> INT16_MAX /\ mac_request P (cmac (ext d)) = false.
(** The port is open and not handed out, no reset is due. *)
Definition sc_awake (d : dv) : Prop := isopen d = true /\ fReset (fl d) = false /\ fLock (fl d) = false.

(** The parameters of a connection. *)
Definition sc_params (d : dv) : cptr * Z * Z := (host d, typ d, port d).

(** *** One run() *)

Definition sc_is_error (L : bytes) : bool := prefixb (bs "ERROR") L || prefixb (bs "SEND FAIL") L.
Lemma sc_not_refused : forall d L, sc_is_error L = false -> sc_refused d L = false.
Proof. intros d L H. unfold sc_is_error, sc_refused in *. apply orb_false_iff in H as [-> ->]. apply andb_false_r. Qed.

(** Reading: the state before the second half. *)
Lemma sc_hear_none : forall P N d e d', sc_step P d e d' -> roomy N d e -> hears None e -> sc_going P d ->
  exists dm d1 a b, sc_inv dm /\ sc_same d dm /\ keepw d dm /\ txav (io dm) + N <= txsz (io dm) /\
    e_acts e = [a; b] /\ act_put a = [] /\ olabC P dm d1 b /\ sc_output P dm = Ok d1 /\ d' = set_io (io d') d1.
Proof.
  intros P N d e d' Hs ((oo & Eo) & Ht) Hn (H1 & H2 & H3 & _).
  destruct (sc_parts P d e d' oo Hs Eo H3) as (d1 & Hd & [(_ & E & _)|(_ & l & dp & Hp & Hr)]); [congruence|].
  destruct Hp as [(F & -> & ->)|(F & _)]; [|change (fReset (fl d) = true) in F; congruence].
  destruct Hr as (a & d2 & r & Hi & [HI Hx] & Hr).
  assert (Hk : keepw (during (e_sch e) d) d2) by exact (ilab_keepw _ _ _ (sc_shape P) _ _ _ _ Hi).
  assert (Htx : txav (io d2) <= txav (io d)) by exact (ilab_tx (sc_shape P) _ _ _ _ Hi).
  destruct (ilab_io (sc_shape P) _ _ _ _ Hi) as (ev & Hst & _).
  assert (Hna : forall tk L, a <> aLine tk L) by (intros tk L ->; apply (Hn tk L); destruct Hr as [[-> _]|(b & -> & _)]; left; reflexivity).
  destruct Hr as [(_ & _ & ->)|(b & Ea & Hol & Hox)]; [exfalso; inversion Hi; subst; try discriminate; eapply Hna; reflexivity|].
  destruct Hox as (I2 & _ & Eq). exists d2, d1, a, b.
  assert (Hsame : sc_same (during (e_sch e) d) d2) by (destruct a; try exact Hx; exfalso; eapply Hna; reflexivity).
  splits; auto.
  - rewrite (sstep_txsz _ _ _ Hst). change (txsz (io (during (e_sch e) d))) with (txsz (io d)). lia.
  - inversion Hi; reflexivity.
Qed.

(** Reading the line [L], which is not an error. *)
Lemma sc_awake_line : forall P N d e d' q, sc_step P d e d' -> roomy N d e -> hears (Some q) e -> (forall L, q L -> sc_is_error L = false) -> sc_awake d ->
  exists dm d1 a b L, sc_inv dm /\ q L /\ sc_effect P L d dm /\
    (fConnect (fl dm) = fConnect (fl d) /\ fDisc (fl dm) = fDisc (fl d) /\ fLock (fl dm) = fLock (fl d)) /\ keepw d dm /\ txav (io dm) + N <= txsz (io dm) /\
    e_acts e = [a; b] /\ act_put a = [] /\ olabC P dm d1 b /\ sc_output P dm = Ok d1 /\ d' = set_io (io d') d1.
Proof.
  intros P N d e d' q Hs ((oo & Eo) & Ht) (tk & L & Hin & HL) Hq (H1 & H2 & H3).
  destruct (sc_parts P d e d' oo Hs Eo H3) as (d1 & Hd & [(_ & E & _)|(_ & l & dp & Hp & Hr)]); [congruence|].
  destruct Hp as [(F & -> & ->)|(F & _)]; [|change (fReset (fl d) = true) in F; congruence].
  destruct Hr as (a & d2 & r & Hi & [HI Hx] & Hr).
  assert (Hk : keepw (during (e_sch e) d) d2) by exact (ilab_keepw _ _ _ (sc_shape P) _ _ _ _ Hi).
  assert (Htx : txav (io d2) <= txav (io d)) by exact (ilab_tx (sc_shape P) _ _ _ _ Hi).
  destruct (ilab_io (sc_shape P) _ _ _ _ Hi) as (ev & Hst & _).
  assert (Ha : a = aLine tk L).
  { destruct Hr as [(Ea & _)|(b & Ea & Hol & _)]; rewrite Ea in Hin; cbn [app] in Hin; destruct Hin as [<-|Hin]; auto; [destruct Hin|].
    destruct Hin as [->|[]]. exfalso. inversion Hol. }
  subst a. destruct Hx as [(_ & _ & Hfl & _) Hx].
  assert (Hwl : whole_line L) by (inversion Hi; assumption). apply sc_line_effect in Hx; [|exact Hwl]. destruct Hx as [Hx Er].
  rewrite (sc_not_refused _ L (Hq L HL)) in Er. destruct Hr as [(_ & _ & E)|(b & Ea & Hol & Hox)]; [congruence|].
  destruct Hox as (I2 & _ & Eq). exists d2, d1, (aLine tk L), b, L. split; [apply I2|]. split; [exact HL|]. split; [exact Hx|]. split; [exact Hfl|]. splits; auto.
  rewrite (sstep_txsz _ _ _ Hst). change (txsz (io (during (e_sch e) d))) with (txsz (io d)). lia.
Qed.
Lemma sc_hear_line : forall P N d e d' q, sc_step P d e d' -> roomy N d e -> hears (Some q) e -> (forall L, q L -> sc_is_error L = false) -> sc_going P d ->
  exists dm d1 a b L, sc_inv dm /\ q L /\ sc_effect P L d dm /\
    (fConnect (fl dm) = fConnect (fl d) /\ fDisc (fl dm) = fDisc (fl d) /\ fLock (fl dm) = fLock (fl d)) /\ keepw d dm /\ txav (io dm) + N <= txsz (io dm) /\
    e_acts e = [a; b] /\ act_put a = [] /\ olabC P dm d1 b /\ sc_output P dm = Ok d1 /\ d' = set_io (io d') d1.
Proof.
  intros P N d e d' q Hs Hr Hh Hq (H1 & H2 & H3 & _). exact (sc_awake_line P N d e d' q Hs Hr Hh Hq (conj H1 (conj H2 H3))).
Qed.

(** What the second half does: the bytes written and the next state. *)
Definition sc_turn (d d1 : dv) (c : bytes) (s : ccsend) (w : option bytes) : Prop :=
  wroteb (io d) (io d1) c /\ sst d1 = s /\ wait d1 = w /\ rst d1 = RCOk /\ keep d d1 /\ rssi d1 = rssi d /\ ext d1 = ext d /\
  fReset (fl d1) = fReset (fl d).

Lemma sc_command_turn : forall d c, sc_inv d -> rst d = RCOk ->
  sc_command (sst d) (host d) (typ d) (port d) = Some c ->
  wp True (sc_machine d) (fun x => sc_turn d x (c ++ [CR; LF]) (sc_after (sst d)) (Some (bs "OK"))).
Proof.
  intros d c H Hrst Hc. open_inv d H. subst rs0. unfold sc_machine. gs. destruct ss0; try discriminate Hc; gs.
  all: unfold sc_command in Hc; apply some_eq in Hc; subst c; syms; try exact I.
  all: unfold sc_turn, keep; gs; splits; try reflexivity; try merge. all: try sayleaf.
Qed.

Definition sc_awaited : list bytes := [bs "OK"; bs ">"].
(** A run() that reads what was awaited gets to its second half with nothing to wait for. *)
Definition sc_fits (p : option (bytes -> Prop)) (d : dv) : Prop :=
  match p with
  | None => wait d = None
  | Some q => exists w, wait d = Some w /\ q = (fun L => prefixb w L = true) /\ In w sc_awaited
  end.
Lemma sc_fits_reply : forall d w, wait d = Some w -> In w sc_awaited -> sc_fits (reply w) d.
Proof. intros d w H1 H2. exists w. splits; auto. Qed.

Lemma sc_free_output : forall P (x x1 : dv), sc_inv x -> sc_output P x = Ok x1 -> wait x = None -> sc_going P x -> txav (io x) + 20 <= txsz (io x) ->
    exists y, quiet (io x) y /\ sc_machine (set_io y x) = Ok x1.
Proof.
  intros P x x1 HI Hx K5 (_ & _ & _ & K6 & K11 & K12) Ht. pose proof HI as ((Hw & _) & Hcm).
  unfold sc_output in Hx. rewrite K5, K6 in Hx. cbn [rc_ok negb] in Hx. unfold d_space in Hx.
  destruct (s_space_q (io x) Hw) as (y & E1 & Q). rewrite E1 in Hx. cbn [bind] in Hx. exists y. split; [exact Q|].
  destruct (Nat.ltb_spec (txsz y - txav y) 20) as [Hlt|Hge].
  - exfalso. apply quiet_ioeff in Q. pose proof (ioeff_av _ _ _ _ Q) as [_ A]. pose proof (ioeff_txsz _ _ _ _ Q). cbn [length] in A. lia.
  - change (rssi (set_io y x)) with (rssi x) in Hx.
    destruct (Z.eqb_spec (rssi x) INT16_MAX); [contradiction|]. cbn [andb] in Hx.
    unfold sc_send_mac in Hx. change (ext (set_io y x)) with (ext x) in Hx. change (fl (set_io y x)) with (fl x) in Hx.
    unfold mac_request in K12. destruct (cmac (ext x)) as [|c0 [|c1 cm]]; try discriminate Hcm. cbn [rd nth_error bind] in Hx.
    assert (Hc : char_is_ff P c1 && aeqb c0 NUL && fLine (fl x) = false).
    { unfold char_is_ff, aeqb. destruct (Ascii.eqb c0 NUL); cbn [andb] in *; [|rewrite andb_false_r; reflexivity].
      destruct (char_signed P); cbn [negb andb] in *; [reflexivity|]. rewrite K12. reflexivity. }
    unfold rd in Hx. cbn [nth_error bind] in Hx. rewrite Hc in Hx. cbn [bind] in Hx. exact Hx.
Qed.

Lemma sc_ready : forall P N p d e d', sc_step P d e d' -> roomy N d e -> hears p e -> sc_going P d -> sc_fits p d -> 20 <= N ->
  exists dm d1 y, sc_inv dm /\ sc_going P dm /\ wait dm = None /\ sst dm = sst d /\ sc_params dm = sc_params d /\
    (fIp (fl dm) = fIp (fl d) /\ fConnect (fl dm) = fConnect (fl d) /\ fDisc (fl dm) = fDisc (fl d) /\ fData (fl dm) = fData (fl d)) /\
    keepw d dm /\ txav (io dm) + N <= txsz (io dm) /\ quiet (io dm) y /\ sc_machine (set_io y dm) = Ok d1 /\
    d' = set_io (io d') d1 /\ (forall q, ioeff (io dm) (io d1) [] q -> put (e_ev e) = q).
Proof.
  intros P N p d e d' Hs Hr Hh Hg Hf HN.
  assert (HP : forall x1 x2 a b q, e_acts e = [a; b] -> act_put a = [] -> olabC P x1 x2 b -> ioeff (io x1) (io x2) [] q -> put (e_ev e) = q).
  { intros x1 x2 a b q Ea Ha Ho Hi. destruct Hr as ((oo & Eop) & _). destruct Hs as (_ & _ & _ & _ & _ & _ & Hio & _). unfold call_io in Hio. rewrite Eop in Hio. destruct Hio as [_ ->].
    rewrite Ea. unfold acts_put. cbn [map concat]. rewrite Ha, app_nil_r. cbn [app].
    refine (olab_put _ _ _ _ _ _ _ _ x1 x2 b [] q _ Ho Hi). intros z Hz. destruct (olab_io (sc_shape P) _ _ _ Hz) as (ev & T1 & _ & T2 & _). eauto. }
  pose proof Hg as (G1 & G2 & G3 & G4 & G5 & G6).
  destruct p as [q|]; cbn [sc_fits] in Hf.
  - destruct Hf as (w & Ew & -> & Hin).
    assert (Hne : forall L, prefixb w L = true -> sc_is_error L = false /\ prefixb (bs "+IPD") L = false /\ prefixb (bs "CLOSED") L = false).
    { intros L HL. apply prefixb_spec in HL as [t ->]. destruct Hin as [<-|[<-|[]]]; splits; reflexivity. }
    destruct (sc_hear_line P N d e d' _ Hs Hr Hh (fun L HL => proj1 (Hne L HL)) Hg) as (dm & d1 & a & b & L & HI & HL & Hx & (Z1 & Z2 & Z3) & Hk & Ht & Ea & Hpa & Hol & Eo & Ed).
    destruct (Hne L HL) as (F1 & F2 & F3). unfold sc_effect in Hx.
    rewrite (sc_not_refused _ L F1) in Hx. unfold sc_data, sc_takes_rssi, sc_takes_mac in Hx. rewrite G4, Ew, F2, F3, HL in Hx.
    rewrite !andb_false_r in Hx. cbn [orb andb] in Hx. destruct Hx as (Y1 & Y2 & Y3 & Y4 & _ & _ & Y6 & Y7 & Y8 & Y9 & _).
    pose proof Hk as ((K1 & K2 & K3 & K4 & K5 & K6) & K7).
    assert (Hgm : sc_going P dm) by (unfold sc_going; rewrite K1, Y9, Y2, Y3, Y4, Z3; splits; auto).
    destruct (sc_free_output P dm d1 HI Eo Y8 Hgm) as (y & Q & Hm); [lia|].
    exists dm, d1, y. splits; auto.
    + unfold sc_params. rewrite K4, K5, K6. reflexivity.
    + intros q Hq. exact (HP dm d1 a b q Ea Hpa Hol Hq).
  - destruct (sc_hear_none P N d e d' Hs Hr Hh Hg) as (dm & d1 & a & b & HI & (S1 & S2 & S3 & S4 & S5 & S6 & S7 & S8 & S9 & S10 & S11 & S12) & Hk & Ht & Ea & Hpa & Hol & Eo & Ed).
    pose proof Hk as ((K1 & K2 & K3 & K4 & K5 & K6) & K7).
    assert (Hgm : sc_going P dm) by (unfold sc_going; rewrite K1, S8, S2, S5, S6, S12; splits; auto).
    destruct (sc_free_output P dm d1 HI Eo ltac:(congruence) Hgm) as (y & Q & Hm); [lia|].
    exists dm, d1, y. splits; auto; try congruence.
    + unfold sc_params. rewrite K4, K5, K6. reflexivity.
    + intros q Hq. exact (HP dm d1 a b q Ea Hpa Hol Hq).
Qed.

(** A run() in a state with a command sends it. *)
Lemma sc_round : forall P N p d e d' c, sc_step P d e d' -> roomy N d e -> hears p e -> sc_going P d -> sc_fits p d -> 20 <= N ->
  sc_command (sst d) (host d) (typ d) (port d) = Some c -> length c + 2 <= N ->
  put (e_ev e) = c ++ [CR; LF] /\ sc_going P d' /\ sst d' = sc_after (sst d) /\ wait d' = Some (bs "OK") /\ sc_params d' = sc_params d.
Proof.
  intros P N p d e d' c Hs Hr Hh Hg Hf HN Hc Hlen.
  destruct (sc_ready P N p d e d' Hs Hr Hh Hg Hf HN) as (dm & d1 & y & HI & (M1 & M2 & M3 & M4 & M5 & M6) & Hw & Hst & Hpa & (Z1 & Z2 & Z3 & Z4) & Hk & Ht & Q & Hm & Ed & Hput).
  assert (HIy : sc_inv (set_io y dm)) by (split; [apply dok_quiet; [apply HI|exact Q]|apply HI]).
  pose proof Hpa as Hpa'. unfold sc_params in Hpa'. injection Hpa' as E3 E4 E5.
  pose proof (sc_command_turn (set_io y dm) c HIy M4) as T.
  change (sst (set_io y dm)) with (sst dm) in T.
  change (host (set_io y dm)) with (host dm) in T. change (typ (set_io y dm)) with (typ dm) in T. change (port (set_io y dm)) with (port dm) in T.
  rewrite Hst, E3, E4, E5 in T. specialize (T Hc). rewrite Hm in T. cbn [wp] in T.
  destruct T as (T1 & T2 & T3 & T4 & (T5 & _ & _ & T6 & T7 & T8) & T9 & T10 & T11). cbn [io set_io] in T1.
  destruct (wroteb_quiet _ _ _ _ Q T1) as (q & I1 & _ & I2). splits.
  - rewrite (Hput q I1). apply I2. rewrite app_length. cbn [length]. lia.
  - pose proof (sc_lock_step P d e d' Hs ltac:(apply Hg)) as L3. rewrite Ed in *. unfold sc_going in *. cbn [isopen fl rst rssi ext set_io] in *. rewrite T5, T4, T9, T10, T11. splits; auto.
  - rewrite Ed. exact T2.
  - rewrite Ed. exact T3.
  - rewrite <- Hpa. rewrite Ed. unfold sc_params. cbn [ext host typ port set_io] in *. rewrite T6, T7, T8. reflexivity.
Qed.

(** The states without a command. *)
Lemma sc_begin : forall P N d e d', sc_step P d e d' -> roomy N d e -> hears None e -> sc_going P d -> wait d = None -> 20 <= N ->
  sst d = SCNotConnected -> fConnect (fl d) = true ->
  put (e_ev e) = [] /\ sc_going P d' /\ sst d' = SCConnecting /\ wait d' = None /\ sc_params d' = sc_params d.
Proof.
  intros P N d e d' Hs Hr Hh Hg Hw HN E F.
  destruct (sc_ready P N None d e d' Hs Hr Hh Hg Hw HN) as (dm & d1 & y & HI & (M1 & M2 & M3 & M4 & M5 & M6) & Hwm & Hst & Hpa & (Z1 & Z2 & Z3 & Z4) & Hk & Ht & Q & Hm & Ed & Hput).
  unfold sc_machine, at_handle_connect in Hm. change (sst (set_io y dm)) with (sst dm) in Hm. rewrite Hst, E in Hm.
  change (fConnect (fl (set_cst csNotConnected (set_io y dm)))) with (fConnect (fl dm)) in Hm. rewrite Z2, F in Hm.
  cbn [snd] in Hm. apply ok_inj in Hm. subst d1. rewrite Ed. clear Ed. split; [apply Hput, quiet_ioeff; exact Q|]. split; [exact (conj M1 (conj M2 (conj M3 (conj M4 (conj M5 M6)))))|]. splits; auto.
Qed.

Lemma sc_finish : forall P N p d e d', sc_step P d e d' -> roomy N d e -> hears p e -> sc_going P d -> sc_fits p d -> 20 <= N ->
  sst d = SCFinalizeConnect ->
  put (e_ev e) = [] /\ sc_going P d' /\ sst d' = SCConnected /\ wait d' = None /\ sc_params d' = sc_params d /\
  ip_is_connected d' = true /\ fIp (fl d') = true.
Proof.
  intros P N p d e d' Hs Hr Hh Hg Hf HN E.
  destruct (sc_ready P N p d e d' Hs Hr Hh Hg Hf HN) as (dm & d1 & y & HI & (M1 & M2 & M3 & M4 & M5 & M6) & Hwm & Hst & Hpa & (Z1 & Z2 & Z3 & Z4) & Hk & Ht & Q & Hm & Ed & Hput).
  unfold sc_machine in Hm. change (sst (set_io y dm)) with (sst dm) in Hm. rewrite Hst, E in Hm.
  apply ok_inj in Hm. subst d1. rewrite Ed. clear Ed. split; [apply Hput, quiet_ioeff; exact Q|]. split; [exact (conj M1 (conj M2 (conj M3 (conj M4 (conj M5 M6)))))|]. splits; auto.
Qed.

Lemma sc_leave : forall P N d e d', sc_step P d e d' -> roomy N d e -> hears None e -> sc_going P d -> wait d = None -> 20 <= N ->
  sst d = SCConnected -> fDisc (fl d) = true -> fIp (fl d) = true -> fData (fl d) = false -> avail (wbuf d) = 0 ->
  put (e_ev e) = [] /\ sc_going P d' /\ sst d' = SCSendCipclose /\ wait d' = None /\ sc_params d' = sc_params d /\ fIp (fl d') = true.
Proof.
  intros P N d e d' Hs Hr Hh Hg Hw HN E F1 F2 F3 F4.
  destruct (sc_ready P N None d e d' Hs Hr Hh Hg Hw HN) as (dm & d1 & y & HI & (M1 & M2 & M3 & M4 & M5 & M6) & Hwm & Hst & Hpa & (Z1 & Z2 & Z3 & Z4) & Hk & Ht & Q & Hm & Ed & Hput).
  destruct Hk as ((_ & _ & K3 & _) & _).
  unfold sc_machine in Hm. change (sst (set_io y dm)) with (sst dm) in Hm. rewrite Hst, E in Hm. unfold sc_connected in Hm.
  change (wbuf (set_io y dm)) with (wbuf dm) in Hm. rewrite K3, F4 in Hm. change (fl (set_io y dm)) with (fl dm) in Hm. rewrite Z4, F3 in Hm.
  change (fl (set_cst csConnected (set_io y dm))) with (fl dm) in Hm. rewrite Z1, F2 in Hm. unfold at_handle_disconnect in Hm.
  change (fl (set_cst csConnected (set_io y dm))) with (fl dm) in Hm. rewrite Z3, F1 in Hm. cbn [Nat.ltb Nat.leb] in Hm. 
  apply ok_inj in Hm. subst d1. rewrite Ed. clear Ed. split; [apply Hput, quiet_ioeff; exact Q|]. split; [exact (conj M1 (conj M2 (conj M3 (conj M4 (conj M5 M6)))))|]. splits; auto. cbn. congruence.
Qed.

Lemma sc_closed : forall P N p d e d', sc_step P d e d' -> roomy N d e -> hears p e -> sc_going P d -> sc_fits p d -> 20 <= N ->
  sst d = SCFinalizeDisconnect ->
  put (e_ev e) = [] /\ sc_going P d' /\ sst d' = SCNotConnected /\ wait d' = None /\ sc_params d' = sc_params d /\ ip_is_idle d' = true.
Proof.
  intros P N p d e d' Hs Hr Hh Hg Hf HN E.
  destruct (sc_ready P N p d e d' Hs Hr Hh Hg Hf HN) as (dm & d1 & y & HI & (M1 & M2 & M3 & M4 & M5 & M6) & Hwm & Hst & Hpa & (Z1 & Z2 & Z3 & Z4) & Hk & Ht & Q & Hm & Ed & Hput).
  unfold sc_machine in Hm. change (sst (set_io y dm)) with (sst dm) in Hm. rewrite Hst, E in Hm.
  apply ok_inj in Hm. subst d1. rewrite Ed. clear Ed. split; [apply Hput, quiet_ioeff; exact Q|]. split; [exact (conj M1 (conj M2 (conj M3 (conj M4 (conj M5 M6)))))|]. splits; auto.
Qed.

(** Waiting, and looking. *)
Definition sc_like (d d' : dv) : Prop :=
  fIp (fl d') = fIp (fl d) /\ fDisc (fl d') = fDisc (fl d) /\ fData (fl d') = fData (fl d) /\ (wbuf d', toWrite d') = (wbuf d, toWrite d).
Lemma sc_wait : forall P N d e d' w, sc_step P d e d' -> roomy N d e -> hears None e -> sc_going P d -> wait d = Some w ->
  put (e_ev e) = [] /\ sc_going P d' /\ sst d' = sst d /\ wait d' = wait d /\ sc_params d' = sc_params d /\ sc_like d d'.
Proof.
  intros P N d e d' w Hs Hr Hh Hg Hw. pose proof Hg as (G1 & G2 & G3 & G4 & G5 & G6).
  destruct (sc_hear_none P N d e d' Hs Hr Hh Hg) as (dm & d1 & a & b & HI & (S1 & S2 & S3 & S4 & S5 & S6 & S7 & S8 & S9 & S10 & S11 & S12) & Hk & Ht & Ea & Hpa & Hol & Eo & Ed).
  destruct Hk as ((K1 & K2 & K3 & K4 & K5 & K6) & K7).
  unfold sc_output in Eo. rewrite S4, Hw in Eo. apply ok_inj in Eo. subst d1. rewrite Ed. splits; auto.
  - destruct Hr as ((oo & Eop) & _). destruct Hs as (_ & _ & _ & _ & _ & _ & Hio & _). unfold call_io in Hio. rewrite Eop in Hio. destruct Hio as [_ ->].
    rewrite Ea. unfold acts_put. cbn [map concat]. rewrite Hpa, app_nil_r. cbn [app].
    destruct (olab_io (sc_shape P) _ _ _ Hol) as (ev & T1 & _ & T2 & _). apply sstep_log in T1. rewrite <- T2.
    replace ev with (@nil event); [reflexivity|]. rewrite <- (app_nil_r (slog (io dm))) in T1 at 1. apply app_inv_head in T1. exact T1.
  - unfold sc_going. cbn [isopen fl rst rssi ext set_io]. rewrite K1, S8, S2, S5, S6, S12. splits; auto.
  - unfold sc_params. cbn [ext host typ port set_io]. rewrite K4, K5, K6. reflexivity.
  - unfold sc_like. cbn [fl wbuf toWrite set_io]. splits; congruence.
Qed.
Lemma sc_look : forall P (d : dv) e d', sc_step P d e d' -> looks (e_op e) = true -> d' = set_io (io d') d /\ put (e_ev e) = [].
Proof.
  intros P d e d' (_ & _ & _ & H & _ & _ & Hio & _) Hl. split; [exact (looked _ _ _ _ _ _ _ _ _ _ _ H Hl)|exact (looked_put _ _ _ _ _ _ Hio Hl)].
Qed.

(** Lines without a meaning for the driver, like an empty line or the echo of a command. *)
Definition sc_noise (L : bytes) : Prop :=
  Forall (fun s => prefixb (bs s) L = false) ["ERROR"; "SEND FAIL"; "+IPD"; "CLOSED"]%string.

Lemma sc_wait_line : forall P N d e d' w, sc_step P d e d' -> roomy N d e -> hears (Some (fun L => sc_noise L /\ prefixb w L <> true)) e -> sc_going P d -> wait d = Some w ->
  put (e_ev e) = [] /\ sc_going P d' /\ sst d' = sst d /\ wait d' = wait d /\ sc_params d' = sc_params d /\ sc_like d d'.
Proof.
  intros P N d e d' w Hs Hr Hh Hg Ew. pose proof Hg as (G1 & G2 & G3 & G4 & G5 & G6).
  assert (Hne : forall L, sc_noise L /\ prefixb w L <> true -> sc_is_error L = false /\ prefixb (bs "+IPD") L = false /\ prefixb (bs "CLOSED") L = false).
  { intros L [HL _]. unfold sc_noise in HL. repeat match goal with H : Forall _ (_ :: _) |- _ => apply Forall_cons_iff in H as [? H] end.
    unfold sc_is_error. repeat match goal with H : prefixb _ L = false |- _ => rewrite H end. splits; reflexivity. }
  destruct (sc_hear_line P N d e d' _ Hs Hr Hh (fun L HL => proj1 (Hne L HL)) Hg) as (dm & d1 & a & b & L & HI & HL & Hx & (Z1 & Z2 & Z3) & Hk & Ht & Ea & Hpa & Hol & Eo & Ed).
  destruct (Hne L HL) as (F1 & F2 & F3). destruct HL as [_ HL]. apply not_true_is_false in HL. unfold sc_effect in Hx.
  rewrite (sc_not_refused _ L F1) in Hx. unfold sc_data, sc_takes_rssi, sc_takes_mac in Hx. rewrite G4, Ew, F2, F3, HL in Hx.
  rewrite !andb_false_r in Hx. cbn [orb andb] in Hx. destruct Hx as (Y1 & Y2 & Y3 & Y4 & _ & _ & Y6 & Y7 & Y8 & Y9 & _).
  destruct Hk as ((K1 & K2 & K3 & K4 & K5 & K6) & K7).
  unfold sc_output in Eo. rewrite Y8 in Eo. apply ok_inj in Eo. subst d1. rewrite Ed. splits; auto.
  - destruct Hr as ((oo & Eop) & _). destruct Hs as (_ & _ & _ & _ & _ & _ & Hio & _). unfold call_io in Hio. rewrite Eop in Hio. destruct Hio as [_ ->].
    rewrite Ea. unfold acts_put. cbn [map concat]. rewrite Hpa, app_nil_r. cbn [app].
    destruct (olab_io (sc_shape P) _ _ _ Hol) as (ev & T1 & _ & T2 & _). apply sstep_log in T1. rewrite <- T2.
    replace ev with (@nil event); [reflexivity|]. rewrite <- (app_nil_r (slog (io dm))) in T1 at 1. apply app_inv_head in T1. exact T1.
  - unfold sc_going. cbn [isopen fl rst rssi ext set_io]. rewrite K1, Y9, Y2, Y3, Y4, Z3. splits; auto.
  - cbn [wait set_io]. congruence.
  - unfold sc_params. cbn [ext host typ port set_io]. rewrite K4, K5, K6. reflexivity.
  - unfold sc_like. cbn [fl wbuf toWrite set_io]. splits; congruence.
Qed.
Lemma sc_aside : forall P N d e d' w q, sc_step P d e d' -> roomy N d e -> aside sc_noise q e -> q = (fun L => prefixb w L = true) -> sc_going P d -> wait d = Some w ->
  put (e_ev e) = [] /\ sc_going P d' /\ sst d' = sst d /\ wait d' = wait d /\ sc_params d' = sc_params d /\ sc_like d d'.
Proof. intros P N d e d' w q Hs Hr [Hh|Hh] -> Hg Hw; [exact (sc_wait P N d e d' w Hs Hr Hh Hg Hw)|exact (sc_wait_line P N d e d' w Hs Hr Hh Hg Hw)]. Qed.

(** *** Dialogues *)

Lemma sc_look_keeps : forall P (K : dv -> Prop), (forall y x, K x -> K (set_io y x)) ->
  forall x e x', sc_step P x e x' -> looks (e_op e) = true -> K x -> K x' /\ put (e_ev e) = [].
Proof. intros P K HK x e x' Hs Hl H. destruct (sc_look P x e x' Hs Hl) as [E1 E2]. split; [rewrite E1; apply HK; exact H|exact E2]. Qed.

(** Up to the next run() that matters. *)
Lemma sc_meet : forall P N p ps d tr d', dialogue (sc_step P) sc_noise N (p :: ps) d tr d' -> sc_going P d -> sc_fits p d ->
  exists d1 e d2 tr2, sent tr = put (e_ev e) ++ sent tr2 /\ sc_going P d1 /\ sst d1 = sst d /\ wait d1 = wait d /\ sc_params d1 = sc_params d /\ sc_fits p d1 /\
    ((p = None -> fl d1 = fl d /\ wbuf d1 = wbuf d) /\ sc_like d d1) /\ sc_step P d1 e d2 /\ roomy N d1 e /\ hears p e /\ dialogue (sc_step P) sc_noise N ps d2 tr2 d'.
Proof.
  intros P N p ps d tr d' Hd Hg Hf.
  destruct (dialogue_next (sc_step P) sc_noise N p ps d tr d' (fun x => sc_going P x /\ sst x = sst d /\ wait x = wait d /\ sc_params x = sc_params d /\
    ((p = None -> fl x = fl d /\ wbuf x = wbuf d) /\ sc_like d x))) as (tr1 & e & tr2 & d1 & d2 & E & Hse & (K1 & K2 & K3 & K4 & K5 & K6) & Hs & Hr & Hh & Hd2).
  - apply sc_look_keeps. intros y x H. exact H.
  - intros q Hp x e x' Hs Hr Hh (K1 & K2 & K3 & K4 & K5 & K6). subst p. destruct Hf as (w & Ew & Eq & _).
    destruct (sc_aside P N x e x' w q Hs Hr Hh Eq K1 ltac:(congruence)) as (A1 & A2 & A3 & A4 & A5 & A6). splits; auto; try congruence; try discriminate.
    destruct K6 as (K6 & K7 & K8 & K9), A6 as (A6 & A7 & A8 & A9). unfold sc_like. splits; congruence.
  - exact Hd.
  - unfold sc_like. splits; auto.
  - exists d1, e, d2, tr2. splits; auto; try (intro Hp; apply (K5 Hp)).
    + rewrite E, sent_app, Hse. reflexivity.
    + destruct p as [q|]; cbn [sc_fits] in *; [|congruence]. destruct Hf as (w & A & B & C). exists w. rewrite K3. auto.
Qed.

Lemma sc_talk : forall P N p ps d tr d' c, dialogue (sc_step P) sc_noise N (p :: ps) d tr d' -> sc_going P d -> sc_fits p d -> 20 <= N ->
  sc_command (sst d) (host d) (typ d) (port d) = Some c -> length c + 2 <= N ->
  exists d2 tr2, sent tr = (c ++ [CR; LF]) ++ sent tr2 /\ sc_going P d2 /\ sst d2 = sc_after (sst d) /\ wait d2 = Some (bs "OK") /\
    sc_params d2 = sc_params d /\ dialogue (sc_step P) sc_noise N ps d2 tr2 d'.
Proof.
  intros P N p ps d tr d' c Hd Hg Hf HN Hc Hlen.
  destruct (sc_meet P N p ps d tr d' Hd Hg Hf) as (d1 & e & d2 & tr2 & E & K1 & K2 & K3 & K4 & K5 & K6 & Hs & Hr & Hh & Hd2).
  pose proof K4 as K4'. unfold sc_params in K4'. injection K4' as E3 E4 E5.
  destruct (sc_round P N p d1 e d2 c Hs Hr Hh K1 K5 HN) as (A1 & A2 & A3 & A4 & A5).
  - rewrite K2, E3, E4, E5. exact Hc.
  - exact Hlen.
  - exists d2, tr2. rewrite E, A1, <- K2. splits; auto. congruence.
Qed.

(** The commands that open a connection, in order; the module answers "OK" to each. *)
Definition sc_opening (host : cptr) (type port : Z) : list bytes :=
  [bs "ATE0"; bs "AT+CIPSTART=" ++ quoted (if (type =? UDP)%Z then bs "UDP" else bs "TCP") ++ bs "," ++ quoted (text host) ++ bs "," ++ dec port].
Definition sc_open_replies : list (option (bytes -> Prop)) := [None; None; reply (bs "OK"); reply (bs "OK")].

Theorem sc_opens : forall P N d tr d', dialogue (sc_step P) sc_noise N sc_open_replies d tr d' -> 20 <= N ->
  sc_going P d -> sst d = SCNotConnected -> wait d = None -> fConnect (fl d) = true ->
  Forall (fun c => length c + 2 <= N) (sc_opening (host d) (typ d) (port d)) ->
  sent tr = commands (sc_opening (host d) (typ d) (port d)) /\
  ip_is_connected d' = true /\ fIp (fl d') = true /\ sst d' = SCConnected /\ wait d' = None /\ sc_going P d' /\ sc_params d' = sc_params d.
Proof.
  intros P N d tr d' Hd HN Hg Hs Hw Hc HF. unfold sc_open_replies in Hd.
  destruct (sc_meet P N _ _ d tr d' Hd Hg Hw) as (x0 & e0 & d0 & tr0 & E0 & J1 & J2 & J3 & J4 & J5 & J6 & Hs0 & Hr0 & Hh0 & Hd0).
  destruct (proj1 J6 eq_refl) as [J7 _].
  destruct (sc_begin P N x0 e0 d0 Hs0 Hr0 Hh0 J1 J5 HN ltac:(congruence) ltac:(congruence)) as (A1 & A2 & A3 & A4 & A5).
  rewrite A1 in E0. cbn [app] in E0. rewrite J4 in A5. clear Hd Hg Hs Hw Hc J1 J2 J3 J4 J5 J6 J7 Hs0 Hr0 Hh0 A1 x0 e0.
  assert (HF' := HF). unfold sc_opening in HF'. apply Forall_cons_iff in HF' as [L1 HF']. apply Forall_cons_iff in HF' as [L2 _].
  pose proof A5 as A5'. unfold sc_params in A5'. injection A5' as P1 P2 P3.
  destruct (sc_talk P N None _ d0 tr0 d' (bs "ATE0") Hd0 A2 A4 HN) as (d1 & tr1 & E1 & B1 & B2 & B3 & B4 & Hd1); [rewrite A3; reflexivity|exact L1|].
  rewrite A3 in B2. cbn [sc_after] in B2. rewrite A5 in B4. pose proof B4 as B4'. unfold sc_params in B4'. injection B4' as Q1 Q2 Q3.
  destruct (sc_talk P N (reply (bs "OK")) _ d1 tr1 d' _ Hd1 B1 (sc_fits_reply _ _ B3 ltac:(left; reflexivity)) HN ltac:(rewrite B2, Q1, Q2, Q3; reflexivity) L2) as (d2 & tr2 & E2 & C1 & C2 & C3 & C4 & Hd2).
  rewrite B2 in C2. cbn [sc_after] in C2.
  destruct (sc_meet P N _ _ d2 tr2 d' Hd2 C1 (sc_fits_reply _ _ C3 ltac:(left; reflexivity))) as (x8 & e8 & d8 & tr8 & E8 & J1 & J2 & J3 & J4 & J5 & J6 & Hs8 & Hr8 & Hh8 & Hd8).
  destruct (sc_finish P N _ x8 e8 d8 Hs8 Hr8 Hh8 J1 J5 HN ltac:(congruence)) as (D1 & D2 & D3 & D4 & D5 & D6 & D7).
  destruct (dialogue_end (sc_step P) sc_noise N d8 tr8 d' (fun x => sc_going P x /\ sst x = SCConnected /\ wait x = None /\ sc_params x = sc_params d /\ ip_is_connected x = true /\ fIp (fl x) = true)) as [E9 (F1 & F2 & F3 & F4 & F5 & F6)].
  - apply sc_look_keeps. intros y x Hx. exact Hx.
  - exact Hd8.
  - splits; auto. congruence.
  - split; [|splits; auto]. rewrite E0, E1, E2, E8, E9, D1. unfold sc_opening, commands. cbn [map concat]. rewrite !app_nil_r. reflexivity.
Qed.

(** The command that closes a connection. *)
Definition sc_close_replies : list (option (bytes -> Prop)) := [None; None; reply (bs "OK")].

Theorem sc_closes : forall P N d tr d', dialogue (sc_step P) sc_noise N sc_close_replies d tr d' -> 20 <= N ->
  sc_going P d -> sst d = SCConnected -> wait d = None -> fDisc (fl d) = true -> fIp (fl d) = true -> fData (fl d) = false ->
  avail (wbuf d) = 0 ->
  sent tr = commands [bs "AT+CIPCLOSE"] /\
  ip_is_idle d' = true /\ sst d' = SCNotConnected /\ wait d' = None /\ sc_going P d' /\ sc_params d' = sc_params d.
Proof.
  intros P N d tr d' Hd HN Hg Hs Hw F1 F2 F3 F4. unfold sc_close_replies in Hd.
  destruct (sc_meet P N _ _ d tr d' Hd Hg Hw) as (x0 & e0 & d0 & tr0 & E0 & J1 & J2 & J3 & J4 & J5 & J6 & Hs0 & Hr0 & Hh0 & Hd0).
  destruct (proj1 J6 eq_refl) as [J7 J8].
  destruct (sc_leave P N x0 e0 d0 Hs0 Hr0 Hh0 J1 J5 HN) as (A1 & A2 & A3 & A4 & A5 & A6); try congruence.
  rewrite A1 in E0. cbn [app] in E0. rewrite J4 in A5. clear Hd Hg Hs Hw F1 F2 F3 F4 J1 J2 J3 J4 J5 J6 J7 J8 Hs0 Hr0 Hh0 A1 x0 e0.
  destruct (sc_talk P N None _ d0 tr0 d' (bs "AT+CIPCLOSE") Hd0 A2 A4 HN) as (d2 & tr2 & E1 & C1 & C2 & C3 & C4 & Hd2);
    [rewrite A3; reflexivity|change (length (bs "AT+CIPCLOSE")) with 11; lia|].
  rewrite A3 in C2. cbn [sc_after] in C2.
  destruct (sc_meet P N _ _ d2 tr2 d' Hd2 C1 (sc_fits_reply _ _ C3 ltac:(left; reflexivity))) as (x3 & e3 & d3 & tr3 & E3 & J1 & J2 & J3 & J4 & J5 & J6 & Hs3 & Hr3 & Hh3 & Hd3).
  destruct (sc_closed P N _ x3 e3 d3 Hs3 Hr3 Hh3 J1 J5 HN ltac:(congruence)) as (D1 & D2 & D3 & D4 & D5 & D6).
  destruct (dialogue_end (sc_step P) sc_noise N d3 tr3 d' (fun x => sc_going P x /\ sst x = SCNotConnected /\ wait x = None /\ sc_params x = sc_params d /\ ip_is_idle x = true)) as [E4 (G1 & G2 & G3 & G4 & G5)].
  - apply sc_look_keeps. intros y x Hx. exact Hx.
  - exact Hd3.
  - splits; auto. congruence.
  - split; [|splits; auto]. rewrite E0, E1, E3, E4, D1. unfold commands. cbn [map concat]. rewrite !app_nil_r. reflexivity.
Qed.
