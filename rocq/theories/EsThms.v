(** Theorems about histories of the Espressif driver. *)
From Coq Require Import String Ascii ZArith List Bool Arith Lia ZifyBool ZifyNat.
From Verif Require Import Base QueueSpec LineSpec SerialSpec Ring RingProofs LineRing LineRingProofs Serial SerialProofs
  SerStep TaskMacros CStr CStrProofs Dev DevProofs SimDev SimProofs SimSpec SimParse SimLog Sym DrvStep DrvCommon DrvRun DrvHist
  Espressif EsSpec EsFill EsProofs EsCtl EsCtlIn EsRun EsHist.
Import ListNotations.
Local Open Scope nat_scope.
Ltac Zify.zify_post_hook ::= Z.div_mod_to_equations.
Local Notation dv := (dev essend esreply espx).
Local Notation ent := (@entry esop).

(** A driver object just constructed, on a serial port in any state, with
    non-empty buffers of a size the counters can hold. *)
Definition se_built (d : dv) : Prop :=
  exists s opened rb wb raw_lbuf raw_mac raw_typ,
    serial_wf s /\ fits (rsize (lr (srx s))) /\ fits (rsize (lr (stx s))) /\ rb <> [] /\ wb <> [] /\ fits (length wb) /\
    length raw_lbuf = 61 /\ length raw_mac = 18 /\
    se_new s opened rb wb raw_lbuf raw_mac raw_typ = Ok d.

(** Calls with valid arguments: pointers to strings, and arrays as long as the
    length passed with them. *)
Definition se_valid (h : list (dop esop * list (list isr))) : Prop := Forall (fun p => goodop se_goodx (fst p)) h.

(** The histories: calls, interrupts, results, port events and actions. *)
Definition se_hist (P : plat) : dv -> list ent -> dv -> Prop := hist (se_driver P) (se_shape P) (se_all False) se_goodx.
Definition se_step (P : plat) : dv -> ent -> dv -> Prop := estep (se_driver P) (se_shape P) (se_all False) se_goodx.

Lemma se_built_fresh : forall d, se_built d -> se_fresh False d.
Proof.
  intros d (s & o & rb & wb & rl & rm & rt & H1 & H2 & H3 & H4 & H5 & H6 & H7 & H8 & E).
  destruct (se_new_ok False s o rb wb rl rm rt H1 H2 H3 H4 H5 H6 H7 H8 ltac:(tauto)) as (d' & E' & F & _). congruence.
Qed.

Theorem se_every_run : forall P d0 h d outs, se_built d0 -> se_valid h -> d_run (se_driver P) d0 h = Ok (d, outs) ->
  exists tr, se_hist P d0 tr d /\ map (fun e => (e_op e, e_sch e)) tr = h /\ map (fun e => (e_out e, e_ev e)) tr = outs.
Proof.
  intros P d0 h d outs Hb Hv E. apply se_built_fresh in Hb. destruct Hb as [HI _].
  destruct (run_hist _ _ _ _ _ (se_contract False P) h d0 d outs HI Hv E) as (tr & A & _ & B & C). exists tr. auto.
Qed.

Lemma se_reset_exact : forall N P d d', se_all N d -> drv_reset (se_driver P) d = Ok d' -> exists y, d' = se_reseted y d /\ rxav y = 0 /\ lring_is (srx (ser y)) [].
Proof.
  intros N P d d' (HI & _) E. cbn [drv_reset se_driver] in E.
  assert (H : wp False (se_reset_states d) (fun d' => exists y, d' = se_reseted y d /\ rxav y = 0 /\ lring_is (srx (ser y)) [])).
  { unfold se_reset_states. apply wp_reset_states; [apply HI|]. intros y ev E1 E2 E3 E4 E5 E6 E7 E8. exists y. splits; auto. }
  rewrite E in H. exact H.
Qed.

(** ** One call *)
Lemma se_cases : forall P d e d', se_step P d e d' ->
  exists d1, d' = set_io (io d') d1 /\ se_all False (during (e_sch e) d) /\
    ((exists oo, e_op e = OpRun oo /\ rrun (se_shape P) oo (during (e_sch e) d) (e_acts e) d1) \/
     ((forall oo, e_op e <> OpRun oo) /\ e_acts e = [] /\ ring_delta (se_shape P) e (during (e_sch e) d) d1 /\
      callrel (se_driver P) (se_shape P) (e_op e) (during (e_sch e) d) (e_out e) (e_acts e) d1)).
Proof. intros P d e d' H. exact (step_cases _ _ _ _ _ (se_contract False P) d e d' H). Qed.

(** run() leaves the strings passed to setSSID() and setPassword() alone, and
    the lock. *)
Definition se_fixed (d d' : dv) : Prop :=
  ssid (ext d') = ssid (ext d) /\ passwd (ext d') = passwd (ext d) /\ (fLock (fl d) = false -> fLock (fl d') = false).
Lemma se_rrun_fixed : forall P oo d l d', rrun (se_shape P) oo d l d' -> se_fixed d d'.
Proof.
  intros P oo d l d' Hr.
  assert (HP : forall l x, prerun (se_shape P) d l x -> se_fixed d x).
  { intros l0 x [(_ & _ & ->)|(_ & q & _ & _ & (_ & _ & _ & G & E & _))]; unfold se_fixed; [auto|]. rewrite G, E. auto. }
  assert (HI : forall x1 a x2 r, se_in_ext P x1 r a x2 -> se_fixed d x1 -> se_fixed d x2).
  { intros x1 a x2 r (_ & _ & Hx) (F1 & F2 & F3). unfold se_fixed. destruct a as [q|tk|tk1 tk2|tk L| |cmd q|n q|q|tk];
    try (destruct Hx as (_ & _ & _ & _ & _ & -> & _ & _ & _ & _ & _ & ->); auto).
    destruct Hx as [(_ & _ & (_ & _ & ->) & _ & _ & _ & _ & _ & _ & (-> & ->) & _) _]. auto. }
  assert (HO : forall x1 a x2, se_out_ext P x1 a x2 -> se_fixed d x1 -> se_fixed d x2).
  { intros x1 a x2 (_ & (_ & _ & (E1 & E2 & _) & _ & _ & _ & E3 & _) & _) (F1 & F2 & F3). unfold se_fixed. rewrite E1, E2, E3. auto. }
  inversion Hr as [Ho Eoo E1 E2|Ho Eoo E1 E2|Ho El E1 E2|l0 x1 HR Hf Hp E1 E2|l0 x1 a x2 HR Hp Hi Hx E1 E2|l0 x1 a x2 b x3 HR Hp Hi Hx Hol Hox E1 E2]; subst; cbn [se_shape sh_iext sh_oext] in *.
  all: try (unfold se_fixed; auto; fail). all: eauto.
Qed.

Theorem se_names_step : forall P d e d', se_step P d e d' ->
  ssid (ext d') = (match e_op e with OpX (SetSSID p) => p | _ => ssid (ext d) end) /\
  passwd (ext d') = (match e_op e with OpX (SetPassword p) => p | _ => passwd (ext d) end) /\
  (fLock (fl d) = false -> fLock (fl d') = false).
Proof.
  intros P d e d' H. destruct (se_cases P d e d' H) as (d1 & Hd & HA & [(oo & Eo & Hr)|(Hn & Ea & Hr & Hc)]); rewrite Hd;
    change (ext (set_io (io d') d1)) with (ext d1); change (fl (set_io (io d') d1)) with (fl d1); clear Hd.
  - rewrite Eo. exact (se_rrun_fixed P oo _ _ _ Hr).
  - destruct Hr as [(_ & _ & _ & _ & _ & _ & _ & _ & _ & _ & _ & _ & _ & _ & _ & Hf)|[E _]].
    + destruct Hf as (_ & _ & _ & Hf & He & _). destruct (e_op e) as [| | | | | | | | | | | | | | | | | |x] eqn:Eo;
        try (destruct Hf as [-> |[x Hf]]; [|discriminate Hf]; destruct He as [-> |[x He]]; [|discriminate He]; auto).
      clear Hf He. destruct Hc as (_ & _ & Hc). cbn [drv_x se_driver] in Hc. destruct x; cbn [se_x] in Hc.
      * injection Hc as _ <-. auto.
      * injection Hc as _ <-. auto.
      * unfold se_request_mac in Hc. destruct (wr _ 0 _) as [b1|]; [|discriminate]. cbn [bind] in Hc. destruct (wr b1 1 _) as [b2|]; [|discriminate]. cbn [bind] in Hc. injection Hc as _ <-. auto.
      * destruct (se_get_mac _); [|discriminate]. cbn [bind] in Hc. injection Hc as _ <-. auto.
    + rewrite E in *. destruct Hc as (_ & _ & _ & Hc). destruct (se_reset_exact False P _ _ HA Hc) as (y & -> & _). auto.
Qed.

(** ** Memory safety *)
Lemma d_run_app : forall {SS RS X XO} (D : driver SS RS X XO) h1 h2 d d2 o, d_run D d (h1 ++ h2) = Ok (d2, o) ->
  exists d1 o1 o2, d_run D d h1 = Ok (d1, o1) /\ d_run D d1 h2 = Ok (d2, o2).
Proof.
  intros SS RS X XO D. induction h1 as [|[op sch] h1 IH]; intros h2 d d2 o E; cbn [app d_run] in *.
  - eauto 6.
  - destruct (d_step D op sch d) as [[[out ev] d1]|]; cbn [bind] in *; [|discriminate].
    destruct (d_run D d1 (h1 ++ h2)) as [[d3 o3]|] eqn:E1; cbn [bind] in E; [|discriminate].
    assert (d3 = d2) by congruence. subst d3. destruct (IH _ _ _ _ E1) as (d4 & o4 & o5 & A & B). rewrite A. cbn [bind]. eauto 6.
Qed.

Lemma se_all_weak : forall (N : Prop) d, se_all N d -> se_all False d.
Proof. intros N d (A & B & C & D & E & F). unfold se_all. splits; auto. intros []. Qed.

(** A pointer, once set, stays set. *)
Lemma se_ssid_set : forall P d tr d', se_hist P d tr d' -> is_str (ssid (ext d)) \/ (exists e p, In e tr /\ e_op e = OpX (SetSSID p)) -> is_str (ssid (ext d')).
Proof.
  intros P d tr d' H. induction H as [|d e d1 tr d2 Hs Hh IH]; [intros [H|(e' & p & Hi & Ee)]; [exact H|destruct Hi]|].
  intros [H|(e' & p & Hi & Ee)]; [|destruct Hi as [<-|Hi]].
  all: apply IH; destruct (se_names_step P d e d1 Hs) as (E & _).
  all: pose proof Hs as (_ & _ & Hg & _).
  - left. rewrite E. destruct (e_op e) as [| | | | | | | | | | | | | | | | | |x]; try exact H. destruct x; try exact H. exact Hg.
  - left. rewrite E, Ee. rewrite Ee in Hg. exact Hg.
  - right. eauto.
Qed.
Lemma se_passwd_set : forall P d tr d', se_hist P d tr d' -> is_str (passwd (ext d)) \/ (exists e p, In e tr /\ e_op e = OpX (SetPassword p)) -> is_str (passwd (ext d')).
Proof.
  intros P d tr d' H. induction H as [|d e d1 tr d2 Hs Hh IH]; [intros [H|(e' & p & Hi & Ee)]; [exact H|destruct Hi]|].
  intros [H|(e' & p & Hi & Ee)]; [|destruct Hi as [<-|Hi]].
  all: apply IH; destruct (se_names_step P d e d1 Hs) as (_ & E & _).
  all: pose proof Hs as (_ & _ & Hg & _).
  - left. rewrite E. destruct (e_op e) as [| | | | | | | | | | | | | | | | | |x]; try exact H. destruct x; try exact H. exact Hg.
  - left. rewrite E, Ee. rewrite Ee in Hg. exact Hg.
  - right. eauto.
Qed.

(** The two unsafe calls: connect() before setSSID() or setPassword(), and
    getMac() while the buffer holds no NUL, which only happens if requestMac()
    was never called. *)
Theorem se_safe : forall P d0 h u, se_built d0 -> se_valid h -> d_run (se_driver P) d0 h = UB u ->
  exists h1 o sch h2 d1 outs, h = h1 ++ (o, sch) :: h2 /\ d_run (se_driver P) d0 h1 = Ok (d1, outs) /\
    ((o = OpConnect /\ ((forall p sch', ~ In (OpX (SetSSID p), sch') h1) \/ (forall p sch', ~ In (OpX (SetPassword p), sch') h1))) \/
     (o = OpX GetMac /\ ~ In NUL (emac (ext d1)) /\ (forall sch', ~ In (OpX RequestMac, sch') h1))).
Proof.
  intros P d0 h u Hb Hv E. apply se_built_fresh in Hb. destruct Hb as [HI _].
  destruct (run_safe _ _ _ _ _ (se_contract False P) h d0 u HI Hv E) as (h1 & o & sch & h2 & d1 & outs & E1 & E2 & I1 & B).
  assert (Hv1 : se_valid h1) by (unfold se_valid in *; rewrite E1 in Hv; apply Forall_app in Hv; apply Hv).
  exists h1, o, sch, h2, d1, outs. split; [exact E1|]. split; [exact E2|].
  destruct o as [| | | | | | | | | | | | | | | | | |x]; cbn [se_may_fail] in B; try contradiction; [left|destruct x; try contradiction; right].
  - split; [reflexivity|]. destruct (run_hist _ _ _ _ _ (se_contract False P) h1 d0 d1 outs HI Hv1 E2) as (tr & Hh & _ & Hm & _).
    assert (HT : forall o' s', In (o', s') h1 -> exists e, In e tr /\ e_op e = o').
    { intros o' s' Hin. rewrite <- Hm in Hin. apply in_map_iff in Hin as (e & Ee & Hi). exists e. split; [exact Hi|congruence]. }
    destruct B as [B|B]; [left|right]; intros p s' Hin; apply HT in Hin as (e & Hi & Ee).
    + destruct (se_ssid_set P d0 tr d1 Hh) as [s Es]; [right; eauto|]. change (ssid (ext d1) = PUninit) in B. congruence.
    + destruct (se_passwd_set P d0 tr d1 Hh) as [s Es]; [right; eauto|]. change (passwd (ext d1) = PUninit) in B. congruence.
  - split; [reflexivity|]. assert (Hn : ~ In NUL (emac (ext d1))).
    { destruct B as (_ & _ & B). unfold during in B. ddev d1. exact B. }
    split; [exact Hn|]. intros sch' Hin. apply Hn.
    apply in_split in Hin as (ha & hb & Eh). rewrite Eh in E2.
    rewrite Eh in Hv1. unfold se_valid in Hv1. apply Forall_app in Hv1 as [Ga Gb]. inversion Gb as [|? ? Gc Gd]. subst.
    destruct (d_run_app _ _ _ _ _ _ E2) as (da & oa & ob & Ea & Eb).
    destruct (run_hist _ _ _ _ _ (se_contract False P) ha d0 da oa HI Ga Ea) as (_ & _ & Ia & _).
    cbn [d_run] in Eb. pose proof (step_ok _ _ _ _ _ (se_contract False P) (OpX RequestMac) sch' da Ia Gc) as Hs.
    destruct (d_step (se_driver P) (OpX RequestMac) sch' da) as [[[out ev] db]|] eqn:Es; [|discriminate]. cbn [bind wp fst snd] in *.
    destruct (d_run (se_driver P) db hb) as [[dc oc]|] eqn:Ec; cbn [bind] in Eb; [|discriminate].
    assert (dc = d1) by congruence. subst dc.
    assert (Ib : se_all True db).
    { destruct Hs as [l (_ & (A1 & A2 & A3 & A4 & A5 & _) & _)]. unfold se_all. splits; auto. intros _.
      unfold d_step in Es. cbn [d_call drv_x se_driver se_x] in Es. unfold se_request_mac in Es.
      assert (Hcm : length (emac (ext da)) = 18) by apply Ia.
      ddev da. dsimp. unfold wr in Es. rewrite Hcm in Es. cbn [Nat.ltb Nat.leb bind] in Es. rewrite list_set_length, Hcm in Es. cbn [Nat.ltb Nat.leb bind] in Es.
      dsimp. destruct (run_isrs _ _) as [[s1 ev1]|]; cbn [bind] in Es; [|discriminate].
      match type of Es with Ok (_, _, ?w) = _ => assert (Ew : db = w) by congruence end. subst db. gs.
      destruct (emac ex0) as [|a [|b cm]]; try discriminate Hcm. left. reflexivity. }
    destruct (run_hist _ _ _ _ _ (se_contract True P) hb db d1 oc Ib Gd Ec) as (_ & _ & (_ & _ & _ & _ & _ & Id) & _). exact (Id I).
Qed.

(** ** Connected only after the modem confirmed *)
Definition se_confirm (c : bool) (a : act) : bool :=
  match a with
  | aLine _ L => c || prefixb (bs "OK") L
  | aCommand cmd _ => if prefixb (bs "AT+CIPSTART") cmd then false else c
  | _ => c
  end.
Definition se_confirmed (tr : list ent) : bool := fold_left (act_log se_confirm (fun _ => false)) tr false.

Lemma se_says_cases : forall P d cmd d', se_says P d cmd d' ->
  (prefixb (bs "AT+CIPSTART") cmd = true -> sst d = SESendCipstart).
Proof.
  intros P d cmd d' H Hp. destruct H as [(_ & -> & _)|[(_ & -> & _)|[(c & Hs & -> & _)|(_ & _ & n & -> & _)]]].
  - discriminate Hp.
  - discriminate Hp.
  - unfold se_command in Hs. destruct (sst d); inversion Hs; subst; try reflexivity; discriminate Hp.
  - discriminate Hp.
Qed.

Lemma se_conf_mono : forall (C C' : Prop) d, (C -> C') -> se_conf C d -> se_conf C' d.
Proof. intros C C' d H (K1 & K2 & K3 & K4). unfold se_conf. splits; auto. intro E. destruct (K1 E) as [?|[?|?]]; auto. Qed.

Lemma se_conf_fields : forall C d d', sst d' = sst d -> wait d' = wait d -> rst d' = rst d -> cst d' = cst d -> fReset (fl d') = fReset (fl d) ->
  se_conf C d -> se_conf C d'.
Proof. intros C d d' E1 E2 E3 E4 E5. unfold se_conf, ip_is_connected. rewrite E1, E2, E3, E4, E5. auto. Qed.

Lemma se_ictl_conf : forall L d d' (C : Prop), se_ictl L d d' -> (prefixb se_opened L = true -> C) -> se_conf C d -> se_conf C d'.
Proof. intros L d d' C (_ & _ & _ & H & _). auto. Qed.

Lemma se_same_conf : forall d d' C, se_same d d' -> se_conf C d -> se_conf C d'.
Proof. intros d d' C (A1 & A2 & A3 & A4 & A5 & A6 & A7 & A8 & _). apply se_conf_fields; assumption. Qed.

Theorem se_conf_history : forall P d0 tr d, se_fresh False d0 -> se_hist P d0 tr d -> se_conf (se_confirmed tr = true) d.
Proof.
  intros P d0 tr d HF Hh. unfold se_confirmed.
  apply (act_ghost _ _ _ _ _ (se_contract False P) _ (fun c d => se_conf (c = true) d) se_confirm (fun _ => false) (fun _ => True)) with (d := d0); auto.
  - intros a d1 (K1 & K2 & K3 & K4). unfold se_conf. cbn [sst set_sst sh_error se_shape se_rank wait fl rst]. splits; auto.
    + discriminate.
    + intros [?|?]; [lia|auto].
    + lia.
  - intros a d1 q d2 (K1 & K2 & K3 & K4) Hr (_ & _ & _ & _ & _ & _ & _ & Hc & _) (R1 & R2 & R3 & R4 & _). cbn [se_confirm].
    unfold se_conf, ip_is_connected in *. rewrite R1, R2, R4, Hc. unfold se_reset_state. destruct (_ && _); cbn [se_rank se_receipt]; splits; auto; try discriminate.
    all: try (intros [?|?]; [lia|discriminate]). all: lia.
  - intros a d1 r d2 b HK Hl (_ & _ & Hx). destruct b; cbn [se_confirm]; try exact (se_same_conf _ _ _ Hx HK); try (inversion Hl; fail).
    destruct Hx as [Hx _]. eapply se_ictl_conf; [exact Hx|intro E; unfold se_opened in E; rewrite E; apply orb_true_r|].
    revert HK. apply se_conf_mono. intros ->. reflexivity.
  - intros e a d1 d2 b _ HK Hl (_ & Hx & _).
    assert (HG : se_conf (a = true) d2) by (destruct Hx as (_ & _ & _ & _ & _ & _ & _ & Hx & _); auto).
    destruct Hl; cbn [se_confirm]; auto. destruct (prefixb _ cmd) eqn:Ep; [|exact HG].
    apply (se_conf_mono False); [intros []|].
    destruct Hx as (_ & _ & _ & _ & _ & _ & _ & _ & _ & _ & _ & _ & Hx).
    apply (Hx ltac:(eapply (se_says_cases P); [match goal with H : sh_says _ _ _ _ |- _ => exact H end|assumption])) with (C := a = true); [|exact HK].
    match goal with H : ~ awaiting _ _ |- _ => revert H end. clear. unfold awaiting, se_shape, sh_ok. intro H.
    destruct (rst d1) eqn:E; auto; contradiction H; right; reflexivity.
  - intros e a d1 d2 _ _ HK _ _ _ Hf E1 E2 E3 E4. revert HK. apply se_conf_fields; auto. apply Hf.
  - intros a d1 d2 HI _ _ E. destruct (se_reset_exact _ P d1 d2 HI E) as (y & -> & _). unfold se_conf. cbn. splits; try discriminate; auto.
    all: try (intros [?|?]; [lia|discriminate]).
  - apply Forall_forall. auto.
  - destruct HF as (_ & _ & F1 & F2 & F3 & F4 & _). unfold se_conf, ip_is_connected. rewrite F1, F2, F4. cbn. splits; try discriminate; auto.
    all: try (intros [?|?]; [lia|discriminate]).
Qed.

Theorem se_connected_confirmed : forall P d0 tr d, se_built d0 -> se_hist P d0 tr d -> ip_is_connected d = true -> se_confirmed tr = true.
Proof. intros P d0 tr d Hb Hh Hc. apply se_built_fresh in Hb. apply (se_conf_history P d0 tr d Hb Hh). exact Hc. Qed.

(** ** Commands and replies stay paired *)

(** What begins the line that ends the reply to a command. *)
Definition se_wants (cmd : bytes) : bytes :=
  if prefixb (bs "AT+CIPRECVDATA=") cmd then bs "+CIPRECVDATA"
  else if prefixb (bs "AT+CWQAP") cmd then bs "WIFI DISCONNECT" else bs "OK".
(** The lines that end it in place: errors, and the loss of the network. *)
Definition se_answers (s L : bytes) : bool :=
  prefixb s L || prefixb (bs "ERROR") L || prefixb (bs "FAIL") L || prefixb (bs "SEND FAIL") L || prefixb (bs "WIFI DISCONNECT") L.
(** What is awaited; [None]: something was sent although a reply was awaited.
    [t]: the type of the connection, once it was set. *)
Definition se_pair (t : option Z) (o : option (option bytes)) (a : act) : option (option bytes) :=
  match o with
  | None => None
  | Some w =>
      match a with
      | aCommand cmd _ => match w with None => Some (Some (se_wants cmd)) | Some _ => None end
      | aAnnounce _ _ => match w with None => Some (Some (bs ">")) | Some _ => None end
      | aPayload _ => match w with None => Some (Some (bs "SEND OK")) | Some _ => None end
      | aReceive _ => match w with None => Some (match t with Some z => if (z =? TCP)%Z then Some (bs "OK") else None | None => None end) | Some _ => None end
      | aReset _ => Some (Some (bs "ready"))
      | aLine _ L => match w with Some x => if se_answers x L then Some None else o | None => o end
      | _ => o
      end
  end.
Definition se_pair_act (acc : option Z * option (option bytes)) (a : act) : option Z * option (option bytes) := (fst acc, se_pair (fst acc) (snd acc) a).
Definition se_pair_call (acc : option Z * option (option bytes)) (e : ent) : option Z * option (option bytes) :=
  match e_op e with
  | OpSetHostPort _ _ t => (Some t, snd acc)
  | OpResetStates => (fst acc, match snd acc with None => None | Some _ => Some None end)
  | _ => acc
  end.
Definition se_awaited (tr : list ent) : option (option bytes) := snd (fold_left (reading se_pair_act se_pair_call) tr (None, Some None)).

Definition se_waiting (o : option (option bytes)) (d : dv) : Prop :=
  exists w, o = Some w /\ (forall s, w = Some s -> wait d = Some s \/ (s = bs "+CIPRECVDATA" /\ rst d = REWaitCiprecvdata)).
Definition se_typed (t : option Z) (d : dv) : Prop := forall z, t = Some z -> typ d = z.
Definition se_paired (acc : option Z * option (option bytes)) (d : dv) : Prop := se_typed (fst acc) d /\ se_waiting (snd acc) d.

Lemma se_waiting_fields : forall o d d', wait d' = wait d -> rst d' = rst d -> se_waiting o d -> se_waiting o d'.
Proof. intros o d d' E1 E2. unfold se_waiting. rewrite E1, E2. auto. Qed.
Lemma se_typed_fields : forall t d d', typ d' = typ d -> se_typed t d -> se_typed t d'.
Proof. intros t d d' E. unfold se_typed. rewrite E. auto. Qed.

Lemma se_says_expects : forall P d cmd d', se_says P d cmd d' ->
  wait d' = Some (se_wants cmd) \/ (se_wants cmd = bs "+CIPRECVDATA" /\ rst d' = REWaitCiprecvdata).
Proof.
  intros P d cmd d' H. destruct H as [(_ & -> & (_ & E1 & E2))|[(_ & -> & (_ & E1 & E2))|[(c & Hs & -> & (_ & E1 & E2))|(_ & (_ & _ & E2) & n & -> & _)]]].
  - left. exact E1.
  - left. exact E1.
  - left. rewrite E1. unfold se_command in Hs. destruct (sst d); try discriminate Hs; injection Hs as <-; try destruct (_ =? _)%Z; reflexivity.
  - right. split; [reflexivity|exact E2].
Qed.

(** After a payload was sent the driver waits for "SEND OK", after one was
    received on a TCP connection for "OK". *)
Lemma se_output_after : forall P (U : Prop) d, se_inv d ->
  (sst d = SESendCipstart -> not_str (host d) -> U) ->
  (sst d = SESendCwjap -> not_str (ssid (ext d)) \/ not_str (passwd (ext d)) -> U) ->
  wp U (se_output P d) (fun d' => (sst d = SESendDataState -> sst d' <> SESendDataState -> wait d' = Some (bs "SEND OK") /\ rst d' = REOk) /\
    ((0 < toRead d)%Z -> toRead d' = 0%Z -> rst d' = REOk /\ wait d' = if (typ d =? TCP)%Z then Some (bs "OK") else None)).
Proof.
  intros P U d H HU HU2. unfold se_output. destruct (wait d) eqn:Ew.
  { cbn [wp]. split; [congruence|lia]. }
  destruct (rst d) eqn:Er; cbn [re_ok negb wp].
  all: try (split; [congruence|lia]).
  open_inv d H. subst. syms.
  all: try (match goal with |- wp _ (se_machine _) _ =>
       unfold se_machine, at_handle_connect, at_handle_disconnect; gs; destruct ss0; gs; syms end).
  all: try (apply HU; [reflexivity | unfold not_str; congruence]).
  all: try (apply HU2; [reflexivity | unfold not_str; first [left; congruence | right; congruence]]).
  all: clear Hwf Hr Ht Hrw Hrs Hww Hws Hwf2 Hl Hw Hpo Hcm HU; cases; gs.
  all: split; first [discriminate | (intros; congruence) | (intros; lia) | (intros _ _; split; reflexivity)].
Qed.

Theorem se_pair_history : forall P d0 tr d, se_fresh False d0 -> se_hist P d0 tr d -> se_waiting (se_awaited tr) d.
Proof.
  intros P d0 tr d HF Hh. unfold se_awaited.
  assert (KT : forall (d : dv) s, wait d = Some s -> se_waiting (Some (Some s)) d).
  { intros d1 s E. eexists. split; [reflexivity|]. intros s' E'. assert (s = s') by congruence. subst. left. exact E. }
  assert (KN : forall d : dv, se_waiting (Some None) d) by (intro d1; eexists; split; [reflexivity|]; discriminate).
  cut (se_paired (fold_left (reading se_pair_act se_pair_call) tr (None, Some None)) d); [intros [_ C]; exact C|].
  apply (call_ghost _ _ _ _ _ (se_contract False P) _ se_paired se_pair_act se_pair_call (fun _ => True)) with (d := d0); auto.
  - intros [t o] d1 q d2 [KA (w & E & _)] _ Hr (_ & _ & R3 & _). unfold se_pair_act in *; cbn [fst snd] in *. subst o. split.
    + revert KA. apply se_typed_fields. destruct Hr as (_ & _ & Hk & _). apply Hk.
    + apply KT. exact R3.
  - intros [t o] d1 r d2 b [KA HK] Hl (_ & _ & Hx). unfold se_pair_act in *; cbn [fst snd] in *. split.
    { revert KA. apply se_typed_fields. inversion Hl; match goal with H : keep d1 d2 |- _ => apply H end. }
    clear KA. destruct Hl.
    + destruct o; exact (se_waiting_fields _ _ _ ltac:(eassumption) ltac:(eassumption) HK).
    + destruct o; exact (se_waiting_fields _ _ _ ltac:(eassumption) ltac:(eassumption) HK).
    + destruct HK as (w & -> & K2). destruct Hx as [(_ & _ & _ & _ & _ & _ & _ & _ & _ & _ & _ & _ & _ & X1 & X2 & _) Hx].
      match goal with H : wait d2 = _ \/ _ |- _ => rename H into Hw end.
      cbn [se_pair fst snd]. destruct w as [s|]; [|apply KN].
      destruct (se_answers s L) eqn:Ea; [apply KN|].
      exists (Some s). split; [reflexivity|]. intros s' E. assert (s = s') by congruence. subst s'.
      unfold se_answers in Ea. apply orb_false_elim in Ea as [Ea Ea5]. apply orb_false_elim in Ea as [Ea Ea4]. apply orb_false_elim in Ea as [Ea Ea3]. apply orb_false_elim in Ea as [Ea1 Ea2].
      destruct (K2 s eq_refl) as [K4|[-> K4]].
      * left. destruct Hw as [-> | [_ Hc]]; [assumption|]. exfalso. cbn [sh_clears se_shape] in Hc.
        destruct Hc as [(w' & Hw' & Hc)|[[Hc|Hc]|[[_ Hc]|[_ Hc]]]]; congruence.
      * right. split; [reflexivity|]. rewrite K4 in X1. destruct (X1 eq_refl) as [X|X]; [assumption|congruence].
  - intros e [t o] d1 d2 b _ [KA (w & Ew & K2)] Hl (I1 & _ & Eo). unfold se_pair_act in *; cbn [fst snd] in *. subst o. split.
    { revert KA. apply se_typed_fields. inversion Hl; first [assumption | match goal with H : keep d1 d2 |- _ => apply H end]. }
    assert (Haf : (sst d1 = SESendDataState -> sst d2 <> SESendDataState -> wait d2 = Some (bs "SEND OK") /\ rst d2 = REOk) /\
      ((0 < toRead d1)%Z -> toRead d2 = 0%Z -> rst d2 = REOk /\ wait d2 = if (typ d1 =? TCP)%Z then Some (bs "OK") else None)).
    { pose proof (se_output_after P True d1 I1 ltac:(auto) ltac:(auto)) as Hq. rewrite Eo in Hq. exact Hq. }
    destruct Haf as [Hsent Hrecv].
    assert (NW : ~ awaiting re_ok d1 -> w = None).
    { intro Hn. destruct w as [s|]; [|reflexivity]; exfalso; apply Hn; unfold awaiting.
      destruct (K2 s eq_refl) as [->|[_ ->]]; [left; discriminate|right; reflexivity]. }
    destruct Hl; cbn [se_pair].
    + apply (se_waiting_fields _ d1); [assumption..|]. exists w. splits; auto.
    + match goal with H : sh_says _ _ _ _ |- _ => pose proof (se_says_expects _ _ _ _ H) as S1 end.
      rewrite NW by assumption. eexists. split; [reflexivity|]. intros s E. assert (s = se_wants cmd) by congruence. subst s. exact S1.
    + rewrite NW by assumption. apply KT. assumption.
    + rewrite NW by assumption. apply KT.
      assert (X1 : sst d1 = SESendDataState) by (match goal with H : sh_insend _ (sst d1) = true |- _ => cbn in H; destruct (sst d1); try discriminate; reflexivity end).
      assert (X2 : sst d2 <> SESendDataState) by (match goal with H : sh_insend _ (sst d2) = false |- _ => cbn in H; intro X; rewrite X in H; discriminate end).
      apply (Hsent X1 X2).
    + rewrite NW by assumption. destruct t as [z|]; [|apply KN]. destruct (z =? TCP)%Z eqn:Ez; [|apply KN]. apply KT.
      destruct Hrecv as [_ R]; [assumption..|]. rewrite R, (KA z eq_refl), Ez. reflexivity.
  - intros e [t o] d1 d2 _ _ [KA HK] Hn Hc Hf _ E2 E3 _. cbn [fst snd] in *.
    destruct Hf as (_ & _ & _ & _ & _ & _ & Hf & _). unfold se_pair_call. destruct (e_op e) eqn:Eq; try discriminate Hn.
    all: try (split; [destruct Hf as [(Hf & _)|(x1 & x2 & x3 & Hf)]; [|discriminate Hf]; revert KA; apply se_typed_fields; exact Hf|exact (se_waiting_fields _ _ _ E3 E2 HK)]).
    split; [|exact (se_waiting_fields _ _ _ E3 E2 HK)]. cbn [fst]. intros z Ez. destruct Hc as [_ Hc]. cbn [d_call] in Hc. injection Hc as _ <-. cbn. congruence.
  - intros e [t o] d1 d2 HI [KA (w & Ew & _)] Eo _ E. cbn [fst snd] in *. subst o. unfold se_pair_call. rewrite Eo. cbn [fst snd]. split; [|apply KN].
    destruct (se_reset_exact False P d1 d2 HI E) as (y & -> & _). exact KA.
  - apply Forall_forall. auto.
  - split; [intros z Ez; discriminate Ez|apply KN].
Qed.
