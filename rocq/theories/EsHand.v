(** The Espressif driver opens and closes a connection if the module answers. *)
From Coq Require Import String Ascii ZArith List Bool Arith Lia ZifyBool ZifyNat.
From Verif Require Import Base QueueSpec LineSpec SerialSpec Ring RingProofs LineRing LineRingProofs Serial SerialProofs
  SerStep TaskMacros CStr CStrProofs Dev DevProofs SimDev SimProofs SimSpec SimParse SimLog Sym DrvStep DrvCommon DrvRun DrvHist DrvActs DrvStuck DrvHand
  Espressif EsSpec EsFill EsProofs EsCtl EsCtlIn EsRun AtLine EsHist EsThms EsMore EsLine EsReq EsRest EsStuck.
Import ListNotations.
Local Open Scope nat_scope.
Ltac Zify.zify_post_hook ::= Z.div_mod_to_equations.
Local Notation dv := (dev essend esreply espx).
Local Notation ent := (@entry esop).
Local Notation olabE P := (olab re_ok (se_says P) se_tail se_insend false).

(** In operation, with no request for the signal strength or the MAC address
    pending and no special reply expected. *)
Definition se_going (P : plat) (d : dv) : Prop :=
  isopen d = true /\ fReset (fl d) = false /\ fLock (fl d) = false /\ rst d = REOk /\ rssi d <> INT16_MAX /\ se_mac_request P (emac (ext d)) = false.
(** The port is open and not handed out, no reset is due. *)
Definition se_awake (d : dv) : Prop := isopen d = true /\ fReset (fl d) = false /\ fLock (fl d) = false.

(** The parameters of a connection. *)
Definition se_params (d : dv) : cptr * cptr * cptr * Z * Z := (ssid (ext d), passwd (ext d), host d, typ d, port d).

Lemma se_going_io : forall P y (d : dv), se_going P (set_io y d) <-> se_going P d.
Proof. intros P y d. split; intro H; exact H. Qed.

(** *** One run() *)

(** Reading: the state before the second half. *)
Lemma se_hear_none : forall P N d e d', se_step P d e d' -> roomy N d e -> hears None e -> se_going P d ->
  exists dm d1 a b, se_inv dm /\ se_same d dm /\ keepw d dm /\ txav (io dm) + N <= txsz (io dm) /\
    e_acts e = [a; b] /\ act_put a = [] /\ olabE P dm d1 b /\ se_output P dm = Ok d1 /\ d' = set_io (io d') d1.
Proof.
  intros P N d e d' Hs ((oo & Eo) & Ht) Hn (H1 & H2 & H3 & _).
  destruct (se_parts P d e d' oo Hs Eo H3) as (d1 & Hd & [(_ & E & _)|[(_ & E & _)|(_ & _ & a & d2 & r & Hi & (HI & _ & Hx) & Hr)]]); [congruence|congruence|].
  assert (Hk : keepw (during (e_sch e) d) d2) by exact (ilab_keepw _ _ _ (se_shape P) _ _ _ _ Hi).
  assert (Htx : txav (io d2) <= txav (io d)) by exact (ilab_tx (se_shape P) _ _ _ _ Hi).
  destruct (ilab_io (se_shape P) _ _ _ _ Hi) as (ev & Hst & _).
  assert (Hna : forall tk L, a <> aLine tk L) by (intros tk L ->; apply (Hn tk L); destruct Hr as [[-> _]|(b & _ & -> & _)]; left; reflexivity).
  destruct Hr as [(_ & _ & ->)|(b & -> & Ea & Hol & Hox)]; [exfalso; inversion Hi; subst; try discriminate; eapply Hna; reflexivity|].
  destruct Hox as (I2 & _ & Eq). exists d2, d1, a, b.
  assert (Hsame : se_same (during (e_sch e) d) d2) by (destruct a; try exact Hx; exfalso; eapply Hna; reflexivity).
  splits; auto.
  - rewrite (sstep_txsz _ _ _ Hst). change (txsz (io (during (e_sch e) d))) with (txsz (io d)). lia.
  - inversion Hi; reflexivity.
Qed.

(** Reading the line [L], which is not an error. *)
Lemma se_awake_line : forall P N d e d' q, se_step P d e d' -> roomy N d e -> hears (Some q) e -> (forall L, q L -> se_is_error L = false) -> se_awake d ->
  exists dm d1 a b L, se_inv dm /\ q L /\ se_effect P L d dm /\
    (fConnect (fl dm) = fConnect (fl d) /\ fDisc (fl dm) = fDisc (fl d) /\ fLock (fl dm) = fLock (fl d)) /\ keepw d dm /\ txav (io dm) + N <= txsz (io dm) /\
    e_acts e = [a; b] /\ act_put a = [] /\ olabE P dm d1 b /\ se_output P dm = Ok d1 /\ d' = set_io (io d') d1.
Proof.
  intros P N d e d' q Hs ((oo & Eo) & Ht) (tk & L & Hin & HL) Hq (H1 & H2 & H3).
  destruct (se_parts P d e d' oo Hs Eo H3) as (d1 & Hd & [(_ & E & _)|[(_ & E & _)|(_ & _ & a & d2 & r & Hi & (HI & _ & Hx) & Hr)]]); [congruence|congruence|].
  assert (Hk : keepw (during (e_sch e) d) d2) by exact (ilab_keepw _ _ _ (se_shape P) _ _ _ _ Hi).
  assert (Htx : txav (io d2) <= txav (io d)) by exact (ilab_tx (se_shape P) _ _ _ _ Hi).
  destruct (ilab_io (se_shape P) _ _ _ _ Hi) as (ev & Hst & _).
  assert (Ha : a = aLine tk L).
  { destruct Hr as [(Ea & _)|(b & _ & Ea & Hol & _)]; rewrite Ea in Hin; cbn [app] in Hin; destruct Hin as [<-|Hin]; auto; [destruct Hin|].
    destruct Hin as [->|[]]. exfalso. inversion Hol. }
  subst a. destruct Hx as [(_ & _ & Hfl & _) Hx].
  assert (Hwl : se_whole (during (e_sch e) d) L) by (inversion Hi; assumption). apply se_line_effect in Hx; [|apply HI|exact Hwl]. destruct Hx as [Hx Er].
  rewrite (Hq L HL) in Er. destruct Hr as [(_ & _ & E)|(b & _ & Ea & Hol & Hox)]; [congruence|].
  destruct Hox as (I2 & _ & Eq). exists d2, d1, (aLine tk L), b, L. split; [apply I2|]. split; [exact HL|]. split; [exact Hx|]. split; [exact Hfl|]. splits; auto.
  rewrite (sstep_txsz _ _ _ Hst). change (txsz (io (during (e_sch e) d))) with (txsz (io d)). lia.
Qed.
Lemma se_hear_line : forall P N d e d' q, se_step P d e d' -> roomy N d e -> hears (Some q) e -> (forall L, q L -> se_is_error L = false) -> se_going P d ->
  exists dm d1 a b L, se_inv dm /\ q L /\ se_effect P L d dm /\
    (fConnect (fl dm) = fConnect (fl d) /\ fDisc (fl dm) = fDisc (fl d) /\ fLock (fl dm) = fLock (fl d)) /\ keepw d dm /\ txav (io dm) + N <= txsz (io dm) /\
    e_acts e = [a; b] /\ act_put a = [] /\ olabE P dm d1 b /\ se_output P dm = Ok d1 /\ d' = set_io (io d') d1.
Proof.
  intros P N d e d' q Hs Hr Hh Hq (H1 & H2 & H3 & _). exact (se_awake_line P N d e d' q Hs Hr Hh Hq (conj H1 (conj H2 H3))).
Qed.

(** What the second half does: the bytes written and the next state. *)
Definition se_turn (d d1 : dv) (c : bytes) (s : essend) (w : option bytes) : Prop :=
  wroteb (io d) (io d1) c /\ sst d1 = s /\ wait d1 = w /\ rst d1 = REOk /\ keep d d1 /\ rssi d1 = rssi d /\ ext d1 = ext d /\
  fReset (fl d1) = fReset (fl d).

Lemma se_command_turn : forall d c, se_inv d -> rst d = REOk -> (sst d = SESendCipclose -> fIp (fl d) = true) ->
  se_command (sst d) (ssid (ext d)) (passwd (ext d)) (host d) (typ d) (port d) = Some c ->
  wp True (se_machine d) (fun x => se_turn d x (c ++ [CR; LF]) (se_after (sst d)) (Some (se_expects (sst d)))).
Proof.
  intros d c H Hrst Hip Hc. open_inv d H. subst rs0. unfold se_machine. gs. destruct ss0; try discriminate Hc; gs.
  all: try (cbn [sst] in Hip; specialize (Hip eq_refl); cbn [fl] in Hip; rewrite Hip).
  all: unfold se_command in Hc; apply some_eq in Hc; subst c; syms; try exact I.
  all: unfold se_turn, keep; gs; splits; try reflexivity; try merge. all: try sayleaf.
  destruct (ty0 =? TCP)%Z; exact W.
Qed.

(** A run() that reads what was awaited gets to its second half with nothing to wait for. *)
Definition se_fits (p : option (bytes -> Prop)) (d : dv) : Prop :=
  match p with
  | None => wait d = None
  | Some q => exists w, wait d = Some w /\ q = (fun L => prefixb w L = true) /\ (w = bs "OK" \/ w = bs "WIFI DISCONNECT" /\ sst d = SEFinalizeDisconnect \/ w = bs ">" \/ w = bs "SEND OK")
  end.


Lemma se_free_output : forall P (x x1 : dv), se_inv x -> se_output P x = Ok x1 -> wait x = None -> se_going P x -> txav (io x) + 20 <= txsz (io x) ->
    exists y, quiet (io x) y /\ se_machine (set_io y x) = Ok x1.
Proof.
  intros P x x1 HI Hx K5 (_ & _ & _ & K6 & K11 & K12) Ht. pose proof HI as ((Hw & _) & Hcm).
  unfold se_output in Hx. rewrite K5, K6 in Hx. cbn [re_ok negb] in Hx. unfold d_space in Hx.
  destruct (s_space_q (io x) Hw) as (y & E1 & Q). rewrite E1 in Hx. cbn [bind] in Hx. exists y. split; [exact Q|].
  destruct (Nat.ltb_spec (txsz y - txav y) 20) as [Hlt|Hge].
  - exfalso. apply quiet_ioeff in Q. pose proof (ioeff_av _ _ _ _ Q) as [_ A]. pose proof (ioeff_txsz _ _ _ _ Q). cbn [length] in A. lia.
  - change (rssi (set_io y x)) with (rssi x) in Hx.
    destruct (Z.eqb_spec (rssi x) INT16_MAX); [contradiction|]. cbn [andb] in Hx.
    unfold se_send_mac in Hx. change (ext (set_io y x)) with (ext x) in Hx. change (fl (set_io y x)) with (fl x) in Hx.
    unfold se_mac_request in K12. destruct (emac (ext x)) as [|c0 [|c1 cm]]; try discriminate Hcm. cbn [rd nth_error bind] in Hx.
    assert (Hc : char_is_ff P c1 && aeqb c0 NUL && fLine (fl x) = false).
    { unfold char_is_ff, aeqb. destruct (Ascii.eqb c0 NUL); cbn [andb] in *; [|rewrite andb_false_r; reflexivity].
      rewrite K12. reflexivity. }
    rewrite Hc in Hx. exact Hx.
Qed.

Lemma se_ready : forall P N p d e d', se_step P d e d' -> roomy N d e -> hears p e -> se_going P d -> se_fits p d -> 20 <= N ->
  exists dm d1 y, se_inv dm /\ se_going P dm /\ wait dm = None /\ sst dm = sst d /\ se_params dm = se_params d /\
    (fIp (fl dm) = fIp (fl d) /\ fConnect (fl dm) = fConnect (fl d) /\ fDisc (fl dm) = fDisc (fl d) /\ fData (fl dm) = fData (fl d)) /\
    keepw d dm /\ txav (io dm) + N <= txsz (io dm) /\ quiet (io dm) y /\ se_machine (set_io y dm) = Ok d1 /\
    d' = set_io (io d') d1 /\ (forall q, ioeff (io dm) (io d1) [] q -> put (e_ev e) = q).
Proof.
  intros P N p d e d' Hs Hr Hh Hg Hf HN.
  assert (HP : forall x1 x2 a b q, e_acts e = [a; b] -> act_put a = [] -> olabE P x1 x2 b -> ioeff (io x1) (io x2) [] q -> put (e_ev e) = q).
  { intros x1 x2 a b q Ea Ha Ho Hi. destruct Hr as ((oo & Eop) & _). destruct Hs as (_ & _ & _ & _ & _ & _ & Hio & _). unfold call_io in Hio. rewrite Eop in Hio. destruct Hio as [_ ->].
    rewrite Ea. unfold acts_put. cbn [map concat]. rewrite Ha, app_nil_r. cbn [app].
    refine (olab_put _ _ _ _ _ _ _ _ x1 x2 b [] q _ Ho Hi). intros z Hz. destruct (olab_io (se_shape P) _ _ _ Hz) as (ev & T1 & _ & T2 & _). eauto. }
  pose proof Hg as (G1 & G2 & G3 & G4 & G5 & G6).
  destruct p as [q|]; cbn [se_fits] in Hf.
  - destruct Hf as (w & Ew & -> & Hw).
    assert (Hne : forall L, prefixb w L = true -> se_is_error L = false /\ prefixb (bs "+IPD") L = false /\ prefixb (bs "SEND FAIL") L = false /\ prefixb (bs "CLOSED") L = false).
    { intros L HL. apply prefixb_spec in HL as [t ->]. destruct Hw as [->|[[-> _]|[->| ->]]]; splits; reflexivity. }
    destruct (se_hear_line P N d e d' _ Hs Hr Hh (fun L HL => proj1 (Hne L HL)) Hg) as (dm & d1 & a & b & L & HI & HL & Hx & (Z1 & Z2 & Z3) & Hk & Ht & Ea & Hpa & Hol & Eo & Ed).
    destruct (Hne L HL) as (F1 & F2 & F3 & F4).
    destruct Hx as (X1 & X2 & Hx). rewrite F1 in Hx. unfold se_data, se_takes_rssi, se_takes_mac, se_nosend in Hx. rewrite G4, Ew, F2, F3, F4, HL in Hx.
    rewrite !andb_false_r in Hx. cbn [orb andb se_header] in Hx. destruct Hx as (Y1 & Y2 & Y3 & Y4 & _ & _ & Y5 & Y6 & Y7 & Y8 & Y9 & _).
    assert (Hws : wait dm = None) by (rewrite Y8; destruct (_ && _); reflexivity).
    assert (Hss : sst dm = sst d).
    { rewrite Y1. destruct Hw as [->|[[-> E]|[->| ->]]]; [|rewrite E; match goal with |- (if ?b then _ else _) = _ => destruct b end; reflexivity| |];
        apply prefixb_spec in HL as [t ->]; match goal with |- context [prefixb (bs "WIFI DISCONNECT") ?l] => change (prefixb (bs "WIFI DISCONNECT") l) with false end; rewrite andb_false_r; reflexivity. }
    pose proof Hk as ((K1 & K2 & K3 & K4 & K5 & K6) & K7).
    assert (Hgm : se_going P dm) by (unfold se_going; rewrite K1, Y9, Y2, Y3, Y4, Z3; splits; auto).
    destruct (se_free_output P dm d1 HI Eo Hws Hgm) as (y & Q & Hm); [lia|].
    exists dm, d1, y. splits; auto.
    + unfold se_params. rewrite X1, X2, K4, K5, K6. reflexivity.
    + intros q Hq. exact (HP dm d1 a b q Ea Hpa Hol Hq).
  - destruct (se_hear_none P N d e d' Hs Hr Hh Hg) as (dm & d1 & a & b & HI & (S1 & S2 & S3 & S4 & S5 & S6 & S7 & S8 & S9 & S10 & S11 & S12) & Hk & Ht & Ea & Hpa & Hol & Eo & Ed).
    pose proof Hk as ((K1 & K2 & K3 & K4 & K5 & K6) & K7).
    assert (Hgm : se_going P dm) by (unfold se_going; rewrite K1, S8, S2, S5, S6, S12; splits; auto).
    destruct (se_free_output P dm d1 HI Eo ltac:(congruence) Hgm) as (y & Q & Hm); [lia|].
    exists dm, d1, y. splits; auto; try congruence.
    + unfold se_params. rewrite S6, K4, K5, K6. reflexivity.
    + intros q Hq. exact (HP dm d1 a b q Ea Hpa Hol Hq).
Qed.

(** A run() in a state with a command sends it. *)
Lemma se_round : forall P N p d e d' c, se_step P d e d' -> roomy N d e -> hears p e -> se_going P d -> se_fits p d -> 20 <= N ->
  se_command (sst d) (ssid (ext d)) (passwd (ext d)) (host d) (typ d) (port d) = Some c -> length c + 2 <= N ->
  (sst d = SESendCipclose -> fIp (fl d) = true) ->
  put (e_ev e) = c ++ [CR; LF] /\ se_going P d' /\ sst d' = se_after (sst d) /\ wait d' = Some (se_expects (sst d)) /\ se_params d' = se_params d.
Proof.
  intros P N p d e d' c Hs Hr Hh Hg Hf HN Hc Hlen Hip.
  destruct (se_ready P N p d e d' Hs Hr Hh Hg Hf HN) as (dm & d1 & y & HI & (M1 & M2 & M3 & M4 & M5 & M6) & Hw & Hst & Hpa & (Z1 & Z2 & Z3 & Z4) & Hk & Ht & Q & Hm & Ed & Hput).
  assert (HIy : se_inv (set_io y dm)) by (split; [apply dok_quiet; [apply HI|exact Q]|apply HI]).
  pose proof Hpa as Hpa'. unfold se_params in Hpa'. injection Hpa' as E1 E2 E3 E4 E5.
  pose proof (se_command_turn (set_io y dm) c HIy M4) as T.
  change (sst (set_io y dm)) with (sst dm) in T. change (fl (set_io y dm)) with (fl dm) in T. change (ext (set_io y dm)) with (ext dm) in T.
  change (host (set_io y dm)) with (host dm) in T. change (typ (set_io y dm)) with (typ dm) in T. change (port (set_io y dm)) with (port dm) in T.
  rewrite Hst, Z1, E1, E2, E3, E4, E5 in T. specialize (T Hip Hc). rewrite Hm in T. cbn [wp] in T.
  destruct T as (T1 & T2 & T3 & T4 & (T5 & _ & _ & T6 & T7 & T8) & T9 & T10 & T11). cbn [io set_io] in T1.
  destruct (wroteb_quiet _ _ _ _ Q T1) as (q & I1 & _ & I2). splits.
  - rewrite (Hput q I1). apply I2. rewrite app_length. cbn [length]. lia.
  - pose proof (se_lock_step P d e d' Hs ltac:(apply Hg)) as L3. rewrite Ed in *. unfold se_going in *. cbn [isopen fl rst rssi ext set_io] in *. rewrite T5, T4, T9, T10, T11. splits; auto.
  - rewrite Ed. exact T2.
  - rewrite Ed. exact T3.
  - rewrite <- Hpa. rewrite Ed. unfold se_params. cbn [ext host typ port set_io] in *. rewrite T10, T6, T7, T8. reflexivity.
Qed.

(** The states without a command. *)
Lemma se_begin : forall P N d e d', se_step P d e d' -> roomy N d e -> hears None e -> se_going P d -> wait d = None -> 20 <= N ->
  sst d = SENotConnected -> fConnect (fl d) = true ->
  put (e_ev e) = [] /\ se_going P d' /\ sst d' = SEConnecting /\ wait d' = None /\ se_params d' = se_params d.
Proof.
  intros P N d e d' Hs Hr Hh Hg Hw HN E F.
  destruct (se_ready P N None d e d' Hs Hr Hh Hg Hw HN) as (dm & d1 & y & HI & (M1 & M2 & M3 & M4 & M5 & M6) & Hwm & Hst & Hpa & (Z1 & Z2 & Z3 & Z4) & Hk & Ht & Q & Hm & Ed & Hput).
  unfold se_machine, at_handle_connect in Hm. change (sst (set_io y dm)) with (sst dm) in Hm. rewrite Hst, E in Hm.
  change (fConnect (fl (set_cst csNotConnected (dev_set_delay 10%Z (set_io y dm))))) with (fConnect (fl dm)) in Hm. rewrite Z2, F in Hm.
  cbn [snd] in Hm. apply ok_eq in Hm. subst d1. rewrite Ed. clear Ed. split; [apply Hput, quiet_ioeff; exact Q|]. split; [exact (conj M1 (conj M2 (conj M3 (conj M4 (conj M5 M6)))))|]. splits; auto.
Qed.

Lemma se_finish : forall P N p d e d', se_step P d e d' -> roomy N d e -> hears p e -> se_going P d -> se_fits p d -> 20 <= N ->
  sst d = SEFinalizeConnect ->
  put (e_ev e) = [] /\ se_going P d' /\ sst d' = SEConnected /\ wait d' = None /\ se_params d' = se_params d /\
  ip_is_connected d' = true /\ fIp (fl d') = true.
Proof.
  intros P N p d e d' Hs Hr Hh Hg Hf HN E.
  destruct (se_ready P N p d e d' Hs Hr Hh Hg Hf HN) as (dm & d1 & y & HI & (M1 & M2 & M3 & M4 & M5 & M6) & Hwm & Hst & Hpa & (Z1 & Z2 & Z3 & Z4) & Hk & Ht & Q & Hm & Ed & Hput).
  unfold se_machine in Hm. change (sst (set_io y dm)) with (sst dm) in Hm. rewrite Hst, E in Hm.
  apply ok_eq in Hm. subst d1. rewrite Ed. clear Ed. split; [apply Hput, quiet_ioeff; exact Q|]. split; [exact (conj M1 (conj M2 (conj M3 (conj M4 (conj M5 M6)))))|]. splits; auto.
Qed.

Lemma se_leave : forall P N d e d', se_step P d e d' -> roomy N d e -> hears None e -> se_going P d -> wait d = None -> 20 <= N ->
  sst d = SEConnected -> fDisc (fl d) = true -> fIp (fl d) = true -> fData (fl d) = false -> avail (wbuf d) = 0 ->
  put (e_ev e) = [] /\ se_going P d' /\ sst d' = SESendCipclose /\ wait d' = None /\ se_params d' = se_params d /\ fIp (fl d') = true.
Proof.
  intros P N d e d' Hs Hr Hh Hg Hw HN E F1 F2 F3 F4.
  destruct (se_ready P N None d e d' Hs Hr Hh Hg Hw HN) as (dm & d1 & y & HI & (M1 & M2 & M3 & M4 & M5 & M6) & Hwm & Hst & Hpa & (Z1 & Z2 & Z3 & Z4) & Hk & Ht & Q & Hm & Ed & Hput).
  destruct Hk as ((_ & _ & K3 & _) & _).
  unfold se_machine in Hm. change (sst (set_io y dm)) with (sst dm) in Hm. rewrite Hst, E in Hm. unfold se_connected in Hm.
  change (wbuf (set_io y dm)) with (wbuf dm) in Hm. rewrite K3, F4 in Hm. change (fl (set_io y dm)) with (fl dm) in Hm. rewrite Z4, F3 in Hm.
  change (fl (set_cst csConnected (set_io y dm))) with (fl dm) in Hm. rewrite Z1, F2 in Hm. unfold at_handle_disconnect in Hm.
  change (fl (set_cst csConnected (set_io y dm))) with (fl dm) in Hm. rewrite Z3, F1 in Hm. cbn [Nat.ltb Nat.leb] in Hm. 
  apply ok_eq in Hm. subst d1. rewrite Ed. clear Ed. split; [apply Hput, quiet_ioeff; exact Q|]. split; [exact (conj M1 (conj M2 (conj M3 (conj M4 (conj M5 M6)))))|]. splits; auto. cbn. congruence.
Qed.

Lemma se_closed : forall P N p d e d', se_step P d e d' -> roomy N d e -> hears p e -> se_going P d -> se_fits p d -> 20 <= N ->
  sst d = SEFinalizeDisconnect ->
  put (e_ev e) = [] /\ se_going P d' /\ sst d' = SENotConnected /\ wait d' = None /\ se_params d' = se_params d /\ ip_is_idle d' = true.
Proof.
  intros P N p d e d' Hs Hr Hh Hg Hf HN E.
  destruct (se_ready P N p d e d' Hs Hr Hh Hg Hf HN) as (dm & d1 & y & HI & (M1 & M2 & M3 & M4 & M5 & M6) & Hwm & Hst & Hpa & (Z1 & Z2 & Z3 & Z4) & Hk & Ht & Q & Hm & Ed & Hput).
  unfold se_machine in Hm. change (sst (set_io y dm)) with (sst dm) in Hm. rewrite Hst, E in Hm.
  apply ok_eq in Hm. subst d1. rewrite Ed. clear Ed. split; [apply Hput, quiet_ioeff; exact Q|]. split; [exact (conj M1 (conj M2 (conj M3 (conj M4 (conj M5 M6)))))|]. splits; auto.
Qed.

(** Waiting, and looking. *)
Definition se_like (d d' : dv) : Prop :=
  fIp (fl d') = fIp (fl d) /\ fDisc (fl d') = fDisc (fl d) /\ fData (fl d') = fData (fl d) /\ (wbuf d', toWrite d') = (wbuf d, toWrite d).
Lemma se_wait : forall P N d e d' w, se_step P d e d' -> roomy N d e -> hears None e -> se_going P d -> wait d = Some w ->
  put (e_ev e) = [] /\ se_going P d' /\ sst d' = sst d /\ wait d' = wait d /\ se_params d' = se_params d /\ se_like d d'.
Proof.
  intros P N d e d' w Hs Hr Hh Hg Hw. pose proof Hg as (G1 & G2 & G3 & G4 & G5 & G6).
  destruct (se_hear_none P N d e d' Hs Hr Hh Hg) as (dm & d1 & a & b & HI & (S1 & S2 & S3 & S4 & S5 & S6 & S7 & S8 & S9 & S10 & S11 & S12) & Hk & Ht & Ea & Hpa & Hol & Eo & Ed).
  destruct Hk as ((K1 & K2 & K3 & K4 & K5 & K6) & K7).
  unfold se_output in Eo. rewrite S4, Hw in Eo. apply ok_eq in Eo. subst d1. rewrite Ed. splits; auto.
  - destruct Hr as ((oo & Eop) & _). destruct Hs as (_ & _ & _ & _ & _ & _ & Hio & _). unfold call_io in Hio. rewrite Eop in Hio. destruct Hio as [_ ->].
    rewrite Ea. unfold acts_put. cbn [map concat]. rewrite Hpa, app_nil_r. cbn [app].
    destruct (olab_io (se_shape P) _ _ _ Hol) as (ev & T1 & _ & T2 & _). apply sstep_log in T1. rewrite <- T2.
    replace ev with (@nil event); [reflexivity|]. rewrite <- (app_nil_r (slog (io dm))) in T1 at 1. apply app_inv_head in T1. exact T1.
  - unfold se_going. cbn [isopen fl rst rssi ext set_io]. rewrite K1, S8, S2, S5, S6, S12. splits; auto.
  - unfold se_params. cbn [ext host typ port set_io]. rewrite S6, K4, K5, K6. reflexivity.
  - unfold se_like. cbn [fl wbuf toWrite set_io]. splits; congruence.
Qed.
Lemma se_look : forall P (d : dv) e d', se_step P d e d' -> looks (e_op e) = true -> d' = set_io (io d') d /\ put (e_ev e) = [].
Proof.
  intros P d e d' (_ & _ & _ & H & _ & _ & Hio & _) Hl. split; [exact (looked _ _ _ _ _ _ _ _ _ _ _ H Hl)|exact (looked_put _ _ _ _ _ _ Hio Hl)].
Qed.

(** Lines without a meaning for the driver, like an empty line or the echo of a command. *)
Definition se_noise (L : bytes) : Prop :=
  Forall (fun s => prefixb (bs s) L = false) ["ERROR"; "FAIL"; "SEND FAIL"; "+IPD"; "CLOSED"; "WIFI DISCONNECT"]%string.

Lemma se_wait_line : forall P N d e d' w, se_step P d e d' -> roomy N d e -> hears (Some (fun L => se_noise L /\ prefixb w L <> true)) e -> se_going P d -> wait d = Some w ->
  put (e_ev e) = [] /\ se_going P d' /\ sst d' = sst d /\ wait d' = wait d /\ se_params d' = se_params d /\ se_like d d'.
Proof.
  intros P N d e d' w Hs Hr Hh Hg Ew. pose proof Hg as (G1 & G2 & G3 & G4 & G5 & G6).
  assert (Hne : forall L, se_noise L /\ prefixb w L <> true -> se_is_error L = false /\ prefixb (bs "+IPD") L = false /\ prefixb (bs "SEND FAIL") L = false /\
    prefixb (bs "CLOSED") L = false /\ prefixb (bs "WIFI DISCONNECT") L = false).
  { intros L [HL _]. unfold se_noise in HL. repeat match goal with H : Forall _ (_ :: _) |- _ => apply Forall_cons_iff in H as [? H] end.
    unfold se_is_error. repeat match goal with H : prefixb _ L = false |- _ => rewrite H end. splits; reflexivity. }
  destruct (se_hear_line P N d e d' _ Hs Hr Hh (fun L HL => proj1 (Hne L HL)) Hg) as (dm & d1 & a & b & L & HI & HL & Hx & (Z1 & Z2 & Z3) & Hk & Ht & Ea & Hpa & Hol & Eo & Ed).
  destruct (Hne L HL) as (F1 & F2 & F3 & F4 & F5). destruct HL as [_ HL]. apply not_true_is_false in HL.
  destruct Hx as (X1 & X2 & Hx). rewrite F1 in Hx. unfold se_data, se_takes_rssi, se_takes_mac, se_nosend in Hx. rewrite G4, Ew, F2, F3, F4, F5, HL in Hx.
  rewrite !andb_false_r in Hx. cbn [orb andb se_header] in Hx. destruct Hx as (Y1 & Y2 & Y3 & Y4 & _ & _ & Y5 & Y6 & Y7 & Y8 & Y9 & _).
  destruct Hk as ((K1 & K2 & K3 & K4 & K5 & K6) & K7).
  unfold se_output in Eo. rewrite Y8 in Eo. apply ok_eq in Eo. subst d1. rewrite Ed. splits; auto.
  - destruct Hr as ((oo & Eop) & _). destruct Hs as (_ & _ & _ & _ & _ & _ & Hio & _). unfold call_io in Hio. rewrite Eop in Hio. destruct Hio as [_ ->].
    rewrite Ea. unfold acts_put. cbn [map concat]. rewrite Hpa, app_nil_r. cbn [app].
    destruct (olab_io (se_shape P) _ _ _ Hol) as (ev & T1 & _ & T2 & _). apply sstep_log in T1. rewrite <- T2.
    replace ev with (@nil event); [reflexivity|]. rewrite <- (app_nil_r (slog (io dm))) in T1 at 1. apply app_inv_head in T1. exact T1.
  - unfold se_going. cbn [isopen fl rst rssi ext set_io]. rewrite K1, Y9, Y2, Y3, Y4, Z3. splits; auto.
  - cbn [wait set_io]. congruence.
  - unfold se_params. cbn [ext host typ port set_io]. rewrite X1, X2, K4, K5, K6. reflexivity.
  - unfold se_like. cbn [fl wbuf toWrite set_io]. splits; congruence.
Qed.
Lemma se_aside : forall P N d e d' w q, se_step P d e d' -> roomy N d e -> aside se_noise q e -> q = (fun L => prefixb w L = true) -> se_going P d -> wait d = Some w ->
  put (e_ev e) = [] /\ se_going P d' /\ sst d' = sst d /\ wait d' = wait d /\ se_params d' = se_params d /\ se_like d d'.
Proof. intros P N d e d' w q Hs Hr [Hh|Hh] -> Hg Hw; [exact (se_wait P N d e d' w Hs Hr Hh Hg Hw)|exact (se_wait_line P N d e d' w Hs Hr Hh Hg Hw)]. Qed.

(** *** Dialogues *)

Lemma se_look_keeps : forall P (K : dv -> Prop), (forall y x, K x -> K (set_io y x)) ->
  forall x e x', se_step P x e x' -> looks (e_op e) = true -> K x -> K x' /\ put (e_ev e) = [].
Proof. intros P K HK x e x' Hs Hl H. destruct (se_look P x e x' Hs Hl) as [E1 E2]. split; [rewrite E1; apply HK; exact H|exact E2]. Qed.

(** Up to the next run() that matters. *)
Lemma se_meet : forall P N p ps d tr d', dialogue (se_step P) se_noise N (p :: ps) d tr d' -> se_going P d -> se_fits p d ->
  exists d1 e d2 tr2, sent tr = put (e_ev e) ++ sent tr2 /\ se_going P d1 /\ sst d1 = sst d /\ wait d1 = wait d /\ se_params d1 = se_params d /\ se_fits p d1 /\
    ((p = None -> fl d1 = fl d /\ wbuf d1 = wbuf d) /\ se_like d d1) /\ se_step P d1 e d2 /\ roomy N d1 e /\ hears p e /\ dialogue (se_step P) se_noise N ps d2 tr2 d'.
Proof.
  intros P N p ps d tr d' Hd Hg Hf.
  destruct (dialogue_next (se_step P) se_noise N p ps d tr d' (fun x => se_going P x /\ sst x = sst d /\ wait x = wait d /\ se_params x = se_params d /\
    ((p = None -> fl x = fl d /\ wbuf x = wbuf d) /\ se_like d x))) as (tr1 & e & tr2 & d1 & d2 & E & Hse & (K1 & K2 & K3 & K4 & K5 & K6) & Hs & Hr & Hh & Hd2).
  - apply se_look_keeps. intros y x H. exact H.
  - intros q Hp x e x' Hs Hr Hh (K1 & K2 & K3 & K4 & K5 & K6). subst p. destruct Hf as (w & Ew & Eq & _).
    destruct (se_aside P N x e x' w q Hs Hr Hh Eq K1 ltac:(congruence)) as (A1 & A2 & A3 & A4 & A5 & A6). splits; auto; try congruence; try discriminate.
    destruct K6 as (K6 & K7 & K8 & K9), A6 as (A6 & A7 & A8 & A9). unfold se_like. splits; congruence.
  - exact Hd.
  - unfold se_like. splits; auto.
  - exists d1, e, d2, tr2. splits; auto; try (intro Hp; apply (K5 Hp)).
    + rewrite E, sent_app, Hse. reflexivity.
    + destruct p as [q|]; cbn [se_fits] in *; [|congruence]. destruct Hf as (w & A & B & C). exists w. rewrite K3, K2. auto.
Qed.

Lemma se_talk : forall P N p ps d tr d' c, dialogue (se_step P) se_noise N (p :: ps) d tr d' -> se_going P d -> se_fits p d -> 20 <= N ->
  se_command (sst d) (ssid (ext d)) (passwd (ext d)) (host d) (typ d) (port d) = Some c -> length c + 2 <= N ->
  (sst d = SESendCipclose -> p = None /\ fIp (fl d) = true) ->
  exists d2 tr2, sent tr = (c ++ [CR; LF]) ++ sent tr2 /\ se_going P d2 /\ sst d2 = se_after (sst d) /\ wait d2 = Some (se_expects (sst d)) /\
    se_params d2 = se_params d /\ dialogue (se_step P) se_noise N ps d2 tr2 d'.
Proof.
  intros P N p ps d tr d' c Hd Hg Hf HN Hc Hlen Hip.
  destruct (se_meet P N p ps d tr d' Hd Hg Hf) as (d1 & e & d2 & tr2 & E & K1 & K2 & K3 & K4 & K5 & K6 & Hs & Hr & Hh & Hd2).
  pose proof K4 as K4'. unfold se_params in K4'. injection K4' as E1 E2 E3 E4 E5.
  destruct (se_round P N p d1 e d2 c Hs Hr Hh K1 K5 HN) as (A1 & A2 & A3 & A4 & A5).
  - rewrite K2, E1, E2, E3, E4, E5. exact Hc.
  - exact Hlen.
  - intro HE. rewrite K2 in HE. destruct (Hip HE) as [H1 H2]. destruct (proj1 K6 H1) as [H3 _]. congruence.
  - exists d2, tr2. rewrite E, A1, <- K2. splits; auto. congruence.
Qed.

(** The commands that open a connection, in order. *)
Definition se_opening (ssid passwd host : cptr) (type port : Z) : list bytes :=
  [bs "ATE0"; bs "AT+CWMODE=1"; bs "AT+CWJAP=" ++ quoted (text ssid) ++ bs "," ++ quoted (text passwd); bs "AT+CIPMUX=0";
   if (type =? TCP)%Z then bs "AT+CIPRECVMODE=1" else bs "AT+CIPRECVMODE=0"; bs "AT+CIPMODE=0";
   bs "AT+CIPSTART" ++
     (if (type =? TCP)%Z then bs "=" ++ quoted (bs "TCP") ++ bs "," ++ [DQ]
      else if (type =? UDP)%Z then bs "=" ++ quoted (bs "UDP") ++ bs "," ++ [DQ]
      else if (type =? SSL)%Z then bs "=" ++ quoted (bs "SSL") ++ bs "," ++ [DQ] else []) ++
     text host ++ [DQ] ++ bs "," ++ dec port].

(** The module answers "OK" to each. *)
Definition se_open_replies : list (option (bytes -> Prop)) := [None; None] ++ repeat (reply (bs "OK")) 7.

Theorem se_opens : forall P N d tr d', dialogue (se_step P) se_noise N se_open_replies d tr d' -> 20 <= N ->
  se_going P d -> sst d = SENotConnected -> wait d = None -> fConnect (fl d) = true ->
  Forall (fun c => length c + 2 <= N) (se_opening (ssid (ext d)) (passwd (ext d)) (host d) (typ d) (port d)) ->
  sent tr = commands (se_opening (ssid (ext d)) (passwd (ext d)) (host d) (typ d) (port d)) /\
  ip_is_connected d' = true /\ fIp (fl d') = true /\ sst d' = SEConnected /\ wait d' = None /\ se_going P d' /\ se_params d' = se_params d.
Proof.
  intros P N d tr d' Hd HN Hg Hs Hw Hc HF. unfold se_open_replies in Hd. cbn [app repeat] in Hd.
  destruct (se_meet P N _ _ d tr d' Hd Hg Hw) as (x0 & e0 & d0 & tr0 & E0 & J1 & J2 & J3 & J4 & J5 & J6 & Hs0 & Hr0 & Hh0 & Hd0).
  destruct (proj1 J6 eq_refl) as [J7 _].
  destruct (se_begin P N x0 e0 d0 Hs0 Hr0 Hh0 J1 J5 HN ltac:(congruence) ltac:(congruence)) as (A1 & A2 & A3 & A4 & A5).
  rewrite A1 in E0. cbn [app] in E0. rewrite J4 in A5. clear Hd Hg Hs Hw Hc J1 J2 J3 J4 J5 J6 J7 Hs0 Hr0 Hh0 A1 x0 e0.
  assert (HF' := HF). unfold se_opening in HF'.
  apply Forall_cons_iff in HF' as [L1 HF']. apply Forall_cons_iff in HF' as [L2 HF']. apply Forall_cons_iff in HF' as [L3 HF']. apply Forall_cons_iff in HF' as [L4 HF'].
  apply Forall_cons_iff in HF' as [L5 HF']. apply Forall_cons_iff in HF' as [L6 HF']. apply Forall_cons_iff in HF' as [L7 _].
  remember (ssid (ext d)) as v1 eqn:V1. remember (passwd (ext d)) as v2 eqn:V2. remember (host d) as v3 eqn:V3. remember (typ d) as v4 eqn:V4. remember (port d) as v5 eqn:V5.
  assert (G : forall x p ps tr s c, dialogue (se_step P) se_noise N (p :: ps) x tr d' -> se_going P x -> sst x = s -> se_fits p x -> se_params x = se_params d ->
    se_command s v1 v2 v3 v4 v5 = Some c -> length c + 2 <= N -> s <> SESendCipclose ->
    exists d2 tr2, sent tr = (c ++ [CR; LF]) ++ sent tr2 /\ se_going P d2 /\ sst d2 = se_after s /\ wait d2 = Some (se_expects s) /\
      se_params d2 = se_params d /\ dialogue (se_step P) se_noise N ps d2 tr2 d').
  { intros x p ps tr1 s c Hd Hg Hs Hf Hp Hc Hl Hn. rewrite <- Hp, <- Hs. apply (se_talk P N p ps x tr1 d' c); auto; [|intro; congruence].
    rewrite Hs. unfold se_params in Hp. injection Hp as B1 B2 B3 B4 B5. rewrite B1, B2, B3, B4, B5, <- V1, <- V2, <- V3, <- V4, <- V5. exact Hc. }
  assert (W : forall x, wait x = Some (bs "OK") -> se_fits (reply (bs "OK")) x) by (intros x Hx; exists (bs "OK"); auto).
  match type of L5 with length ?c + 2 <= N => assert (C5 : se_command SESendCiprecvmode v1 v2 v3 v4 v5 = Some c) by (unfold se_command; destruct (v4 =? TCP)%Z; reflexivity) end.
  match type of L7 with length ?c + 2 <= N => assert (C7 : se_command SESendCipstart v1 v2 v3 v4 v5 = Some c) by reflexivity end.
  pose proof (eq_refl : se_command SEConnecting v1 v2 v3 v4 v5 = Some (bs "ATE0")) as C1.
  pose proof (eq_refl : se_command SESendCwmode v1 v2 v3 v4 v5 = Some (bs "AT+CWMODE=1")) as C2.
  match type of L3 with length ?c + 2 <= N => pose proof (eq_refl : se_command SESendCwjap v1 v2 v3 v4 v5 = Some c) as C3 end.
  pose proof (eq_refl : se_command SESendCipmux v1 v2 v3 v4 v5 = Some (bs "AT+CIPMUX=0")) as C4.
  pose proof (eq_refl : se_command SESendCipmode v1 v2 v3 v4 v5 = Some (bs "AT+CIPMODE=0")) as C6.
  rename A2 into A2_0, A3 into A3_0, A4 into A4_0, A5 into A5_0.
  destruct (G d0 _ _ tr0 _ _ Hd0 A2_0 A3_0 A4_0 A5_0 (C1 : _ = Some _) L1 ltac:(discriminate)) as (d1 & tr1 & E1 & A2_1 & A3_1 & A4_1 & A5_1 & Hd1).
  destruct (G d1 _ _ tr1 _ _ Hd1 A2_1 A3_1 (W _ A4_1) A5_1 (C2 : _ = Some _) L2 ltac:(discriminate)) as (d2 & tr2 & E2 & A2_2 & A3_2 & A4_2 & A5_2 & Hd2).
  destruct (G d2 _ _ tr2 _ _ Hd2 A2_2 A3_2 (W _ A4_2) A5_2 (C3 : _ = Some _) L3 ltac:(discriminate)) as (d3 & tr3 & E3 & A2_3 & A3_3 & A4_3 & A5_3 & Hd3).
  destruct (G d3 _ _ tr3 _ _ Hd3 A2_3 A3_3 (W _ A4_3) A5_3 (C4 : _ = Some _) L4 ltac:(discriminate)) as (d4 & tr4 & E4 & A2_4 & A3_4 & A4_4 & A5_4 & Hd4).
  destruct (G d4 _ _ tr4 _ _ Hd4 A2_4 A3_4 (W _ A4_4) A5_4 (C5 : _ = Some _) L5 ltac:(discriminate)) as (d5 & tr5 & E5 & A2_5 & A3_5 & A4_5 & A5_5 & Hd5).
  destruct (G d5 _ _ tr5 _ _ Hd5 A2_5 A3_5 (W _ A4_5) A5_5 (C6 : _ = Some _) L6 ltac:(discriminate)) as (d6 & tr6 & E6 & A2_6 & A3_6 & A4_6 & A5_6 & Hd6).
  destruct (G d6 _ _ tr6 _ _ Hd6 A2_6 A3_6 (W _ A4_6) A5_6 (C7 : _ = Some _) L7 ltac:(discriminate)) as (d7 & tr7 & E7 & A2_7 & A3_7 & A4_7 & A5_7 & Hd7).
  destruct (se_meet P N _ _ d7 tr7 d' Hd7 A2_7 (W _ A4_7)) as (x8 & e8 & d8 & tr8 & E8 & J1 & J2 & J3 & J4 & J5 & J6 & Hs8 & Hr8 & Hh8 & Hd8).
  destruct (se_finish P N _ x8 e8 d8 Hs8 Hr8 Hh8 J1 J5 HN ltac:(rewrite J2, A3_7; reflexivity)) as (B1 & B2 & B3 & B4 & B5 & B6 & B7).
  destruct (dialogue_end (se_step P) se_noise N d8 tr8 d' (fun x => se_going P x /\ sst x = SEConnected /\ wait x = None /\ se_params x = se_params d /\ ip_is_connected x = true /\ fIp (fl x) = true)) as [E9 (F1 & F2 & F3 & F4 & F5 & F6)].
  - apply se_look_keeps. intros y x Hx. exact Hx.
  - exact Hd8.
  - splits; auto. congruence.
  - split; [|splits; auto]. rewrite E0, E1, E2, E3, E4, E5, E6, E7, E8, E9, B1. unfold se_opening, commands. cbn [map concat]. rewrite !app_nil_r. reflexivity.
Qed.

(** The commands that close a connection. *)
Definition se_close_replies : list (option (bytes -> Prop)) := [None; None; reply (bs "OK"); reply (bs "WIFI DISCONNECT")].

Theorem se_closes : forall P N d tr d', dialogue (se_step P) se_noise N se_close_replies d tr d' -> 20 <= N ->
  se_going P d -> sst d = SEConnected -> wait d = None -> fDisc (fl d) = true -> fIp (fl d) = true -> fData (fl d) = false ->
  avail (wbuf d) = 0 ->
  sent tr = commands [bs "AT+CIPCLOSE"; bs "AT+CWQAP"] /\
  ip_is_idle d' = true /\ sst d' = SENotConnected /\ wait d' = None /\ se_going P d' /\ se_params d' = se_params d.
Proof.
  intros P N d tr d' Hd HN Hg Hs Hw F1 F2 F3 F4. unfold se_close_replies in Hd.
  destruct (se_meet P N _ _ d tr d' Hd Hg Hw) as (x0 & e0 & d0 & tr0 & E0 & J1 & J2 & J3 & J4 & J5 & J6 & Hs0 & Hr0 & Hh0 & Hd0).
  destruct (proj1 J6 eq_refl) as [J7 J8].
  destruct (se_leave P N x0 e0 d0 Hs0 Hr0 Hh0 J1 J5 HN) as (A1 & A2 & A3 & A4 & A5 & A6); try congruence.
  rewrite A1 in E0. cbn [app] in E0. rewrite J4 in A5. clear Hd Hg Hs Hw F1 F2 F3 F4 J1 J2 J3 J4 J5 J6 J7 J8 Hs0 Hr0 Hh0 A1 x0 e0.
  destruct (se_talk P N None _ d0 tr0 d' (bs "AT+CIPCLOSE") Hd0 A2 A4 HN) as (d1 & tr1 & E1 & B1 & B2 & B3 & B4 & Hd1);
    [rewrite A3; reflexivity|change (length (bs "AT+CIPCLOSE")) with 11; lia|auto|].
  rewrite A3 in B2, B3. cbn [se_after se_expects] in B2, B3.
  destruct (se_talk P N (reply (bs "OK")) _ d1 tr1 d' (bs "AT+CWQAP") Hd1 B1 (ex_intro _ _ (conj B3 (conj eq_refl (or_introl eq_refl)))) HN) as (d2 & tr2 & E2 & C1 & C2 & C3 & C4 & Hd2);
    [rewrite B2; reflexivity|change (length (bs "AT+CWQAP")) with 8; lia|rewrite B2; discriminate|].
  rewrite B2 in C2, C3. cbn [se_after se_expects] in C2, C3.
  assert (W : se_fits (reply (bs "WIFI DISCONNECT")) d2) by (exists (bs "WIFI DISCONNECT"); splits; auto).
  destruct (se_meet P N _ _ d2 tr2 d' Hd2 C1 W) as (x3 & e3 & d3 & tr3 & E3 & J1 & J2 & J3 & J4 & J5 & J6 & Hs3 & Hr3 & Hh3 & Hd3).
  destruct (se_closed P N _ x3 e3 d3 Hs3 Hr3 Hh3 J1 J5 HN ltac:(congruence)) as (D1 & D2 & D3 & D4 & D5 & D6).
  destruct (dialogue_end (se_step P) se_noise N d3 tr3 d' (fun x => se_going P x /\ sst x = SENotConnected /\ wait x = None /\ se_params x = se_params d /\ ip_is_idle x = true)) as [E4 (G1 & G2 & G3 & G4 & G5)].
  - apply se_look_keeps. intros y x Hx. exact Hx.
  - exact Hd3.
  - splits; auto. congruence.
  - split; [|splits; auto]. rewrite E0, E1, E2, E3, E4, D1. unfold commands. cbn [map concat]. rewrite !app_nil_r. reflexivity.
Qed.
