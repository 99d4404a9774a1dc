(** Theorems about histories of the SIM7x00 driver. *)
From Coq Require Import String Ascii ZArith List Bool Arith Lia ZifyBool ZifyNat.
From Verif Require Import Base QueueSpec LineSpec SerialSpec Ring RingProofs LineRing LineRingProofs Serial SerialProofs
  SerStep TaskMacros CStr CStrProofs Dev DevProofs SimDev SimProofs SimSpec SimParse SimLog Sym DrvStep DrvCommon DrvRun DrvHist
  Sim7x00 Sim7Spec Sim7Proofs Sim7Ctl Sim7CtlIn Sim7Run Sim7Hist.
Import ListNotations.
Local Open Scope nat_scope.
Ltac Zify.zify_post_hook ::= Z.div_mod_to_equations.
Local Notation dv := (dev s7send s7reply simx).
Local Notation ent := (@entry simop).

(** A driver object just constructed, on a serial port in any state, with
    non-empty buffers of a size the counters can hold. *)
Definition s7_built (d : dv) : Prop :=
  exists s opened rb wb raw_lbuf raw_ip raw_id raw_typ,
    serial_wf s /\ fits (rsize (lr (srx s))) /\ fits (rsize (lr (stx s))) /\ rb <> [] /\ wb <> [] /\ fits (length wb) /\
    length raw_lbuf = 61 /\ length raw_ip = 16 /\ length raw_id = 24 /\
    s7_new s opened rb wb raw_lbuf raw_ip raw_id raw_typ = Ok d.

(** Calls with valid arguments: pointers to strings, and arrays as long as the
    length passed with them. *)
Definition s7_valid (h : list (dop simop * list (list isr))) : Prop := Forall (fun p => goodop s7_goodx (fst p)) h.

(** The histories: calls, interrupts, results, port events and actions. *)
Definition s7_hist (P : plat) : dv -> list ent -> dv -> Prop := hist (s7_driver P) (s7_shape P) s7_all s7_goodx.
Definition s7_step (P : plat) : dv -> ent -> dv -> Prop := estep (s7_driver P) (s7_shape P) s7_all s7_goodx.

Lemma s7_built_fresh : forall d, s7_built d -> s7_fresh d.
Proof.
  intros d (s & o & rb & wb & rl & ri & ri' & rt & H1 & H2 & H3 & H4 & H5 & H6 & H7 & H8 & H9 & E).
  destruct (s7_new_ok s o rb wb rl ri ri' rt H1 H2 H3 H4 H5 H6 H7 H8 H9) as (d' & E' & F). congruence.
Qed.

Theorem s7_every_run : forall P d0 h d outs, s7_built d0 -> s7_valid h -> d_run (s7_driver P) d0 h = Ok (d, outs) ->
  exists tr, s7_hist P d0 tr d /\ map (fun e => (e_op e, e_sch e)) tr = h /\ map (fun e => (e_out e, e_ev e)) tr = outs.
Proof.
  intros P d0 h d outs Hb Hv E. apply s7_built_fresh in Hb. destruct Hb as [HI _].
  destruct (run_hist _ _ _ _ _ (s7_contract P) h d0 d outs HI Hv E) as (tr & A & _ & B & C). exists tr. auto.
Qed.

(** ** Memory safety *)

(** The one unsafe input: the line completing an answer to AT+CDNSGIP whose
    address text has more than 15 characters. *)
Definition s7_dns_overflow (d : dv) : Prop :=
  rst d = R7Cdnsgip /\
  exists y tk L a, ioeff (io d) y tk [] /\ L = pending d ++ tk /\ whole_line L /\
    prefixb (bs "+CDNSGIP: 1") L = true /\ 4 <= quotes (cbody L) <= 10 /\ dns_ip (cbody L) = Some a /\ 15 < length a.

Lemma s7_long_overflow : forall d, s7_all d -> s7_long_dns d -> s7_dns_overflow d.
Proof.
  intros d ((Hd & _) & _) (d1 & a & Ef & Hr & [Hg1 Hg2] & Ha & Hl). split; [assumption|].
  pose proof (fill_ok _ _ _ d ltac:(apply Hd) ltac:(apply Hd)) as Hf. rewrite Ef in Hf. cbn [wp] in Hf.
  destruct Hf as [[E F]|[(y & tk & lb & E & _)|(y & tk & lb & r & E & F & HI & Hlb & Htk & Hwl & Hlb2)]]; inversion E. subst d1.
  gs. cbn [lbuf set_lbfill set_lbuf] in *. rewrite Hlb2 in *. rewrite str_body_line in *. rewrite prefixb_line in Hg1 by lfree.
  exists y, tk, (pending d ++ tk), a. splits; auto; lia.
Qed.

Theorem s7_safe : forall P d0 h u, s7_built d0 -> s7_valid h -> d_run (s7_driver P) d0 h = UB u ->
  exists h1 oo sch h2 d1 outs, h = h1 ++ (OpRun oo, sch) :: h2 /\ d_run (s7_driver P) d0 h1 = Ok (d1, outs) /\
    s7_dns_overflow (during sch d1).
Proof.
  intros P d0 h u Hb Hv E. apply s7_built_fresh in Hb. destruct Hb as [HI _].
  destruct (run_safe _ _ _ _ _ (s7_contract P) h d0 u HI Hv E) as (h1 & o & sch & h2 & d1 & outs & E1 & E2 & I1 & B).
  destruct o; cbn [s7_may_fail] in B; try contradiction. exists h1, open_ok, sch, h2, d1, outs. splits; auto.
  apply s7_long_overflow; [|exact B]. apply (during_inv _ _ _ _ _ (s7_contract P)). assumption.
Qed.

(** ** Connected only after the modem confirmed *)
Definition s7_confirm (c : bool) (a : act) : bool :=
  match a with
  | aLine _ L => c || prefixb (bs "+CIPOPEN: 0,0") L
  | aCommand cmd _ => if prefixb (bs "AT+CIPOPEN=") cmd then false else c
  | _ => c
  end.
Definition s7_confirmed (tr : list ent) : bool := fold_left (act_log s7_confirm (fun _ => false)) tr false.

Lemma s7_says_cases : forall d cmd d', s7_says d cmd d' ->
  (prefixb (bs "AT+CIPOPEN=") cmd = true -> sst d = S7SendCipopen).
Proof.
  intros d cmd d' H Hp. destruct H as [(_ & -> & _)|[(c & Hi & -> & _)|[(c & Hs & -> & _)|(_ & _ & n & -> & _)]]].
  - discriminate Hp.
  - unfold id_request in Hi. destruct (nth_error _ 1) as [t|]; [|discriminate]. destruct (id_of_code t) as [[]|]; inversion Hi; subst; discriminate Hp.
  - unfold s7_command in Hs. destruct (sst d); inversion Hs; subst; try reflexivity; discriminate Hp.
  - discriminate Hp.
Qed.

Lemma s7_conf_mono : forall (C C' : Prop) d, (C -> C') -> s7_conf C d -> s7_conf C' d.
Proof. intros C C' d H (K1 & K2 & K3 & K4). unfold s7_conf. splits; auto. intro E. destruct (K1 E) as [?|[?|?]]; auto. Qed.

Lemma s7_conf_fields : forall C d d', sst d' = sst d -> wait d' = wait d -> rst d' = rst d -> cst d' = cst d -> fReset (fl d') = fReset (fl d) ->
  s7_conf C d -> s7_conf C d'.
Proof. intros C d d' E1 E2 E3 E4 E5. unfold s7_conf, ip_is_connected. rewrite E1, E2, E3, E4, E5. auto. Qed.

Lemma s7_reset_exact : forall P d d', s7_all d -> drv_reset (s7_driver P) d = Ok d' -> exists y, d' = s7_reseted y d /\ rxav y = 0 /\ lring_is (srx (ser y)) [].
Proof.
  intros P d d' (HI & _) E. cbn [drv_reset s7_driver] in E.
  assert (H : wp False (sim_reset_states S7NotConnected R7Ok d) (fun d' => exists y, d' = s7_reseted y d /\ rxav y = 0 /\ lring_is (srx (ser y)) [])).
  { apply wp_sim_reset_states; [apply HI|apply HI|]. intros y ev E1 E2 E3 E4 E5 E6 E7 E8. exists y. splits; auto. }
  rewrite E in H. exact H.
Qed.

Lemma s7_ictl_conf : forall L d d' (C : Prop), s7_ictl L d d' -> (prefixb s7_opened L = true -> C) -> s7_conf C d -> s7_conf C d'.
Proof. intros L d d' C (_ & _ & _ & H & _). auto. Qed.

Lemma s7_same_conf : forall d d' C, s7_same d d' -> s7_conf C d -> s7_conf C d'.
Proof. intros d d' C (A1 & A2 & A3 & A4 & A5 & A6 & A7 & A8 & _). apply s7_conf_fields; assumption. Qed.

Theorem s7_conf_history : forall P d0 tr d, s7_fresh d0 -> s7_hist P d0 tr d -> s7_conf (s7_confirmed tr = true) d.
Proof.
  intros P d0 tr d HF Hh. unfold s7_confirmed.
  apply (act_ghost _ _ _ _ _ (s7_contract P) _ (fun c d => s7_conf (c = true) d) s7_confirm (fun _ => false) (fun _ => True)) with (d := d0); auto.
  - intros a d1 (K1 & K2 & K3 & K4). unfold s7_conf. cbn [sst set_sst sh_error s7_shape s7_rank wait fl rst]. splits; auto.
    + discriminate.
    + intros [?|?]; [lia|auto].
    + intros [?|?]; [lia|auto].
  - intros a d1 q d2 (K1 & K2 & K3 & K4) Hr (_ & _ & _ & _ & _ & _ & _ & Hc & _) (R1 & R2 & R3 & R4 & _). cbn [s7_confirm].
    unfold s7_conf, ip_is_connected in *. rewrite R1, R2, R4, Hc. destruct (_ && _); cbn [s7_rank]; splits; auto; try discriminate.
    all: intros [?|?]; [lia|discriminate].
  - intros a d1 r d2 b HK Hl [_ Hx]. destruct b; cbn [s7_confirm]; try exact (s7_same_conf _ _ _ Hx HK); try (inversion Hl; fail).
    destruct Hx as [Hx _]. eapply s7_ictl_conf; [exact Hx|intro E; unfold s7_opened in E; rewrite E; apply orb_true_r|].
    revert HK. apply s7_conf_mono. intros ->. reflexivity.
  - intros e a d1 d2 b _ HK Hl (_ & Hx & _).
    assert (HG : s7_conf (a = true) d2) by (destruct Hx as (_ & _ & _ & _ & _ & _ & _ & _ & Hx & _); auto).
    destruct Hl; cbn [s7_confirm]; auto. destruct (prefixb _ cmd) eqn:Ep; [|exact HG].
    apply (s7_conf_mono False); [intros []|].
    destruct Hx as (_ & _ & _ & _ & _ & _ & _ & _ & _ & _ & _ & _ & Hx).
    apply (Hx ltac:(eapply s7_says_cases; eauto)) with (C := a = true); [|exact HK].
    match goal with H : ~ awaiting _ _ |- _ => revert H end. clear. unfold awaiting, s7_shape, sh_ok. intro H.
    destruct (rst d1) eqn:E; auto; contradiction H; right; reflexivity.
  - intros e a d1 d2 _ _ HK _ _ _ Hf E1 E2 E3 E4. revert HK. apply s7_conf_fields; auto. apply Hf.
  - intros a d1 d2 HI _ _ E. destruct (s7_reset_exact P d1 d2 HI E) as (y & -> & _). unfold s7_conf. cbn. splits; try discriminate; auto.
    intros [?|?]; [lia|discriminate].
  - apply Forall_forall. auto.
  - destruct HF as (_ & _ & F1 & F2 & F3 & F4 & _). unfold s7_conf, ip_is_connected. rewrite F1, F2, F4. cbn. splits; try discriminate; auto.
    intros [?|?]; [lia|discriminate].
Qed.

Theorem s7_connected_confirmed : forall P d0 tr d, s7_built d0 -> s7_hist P d0 tr d -> ip_is_connected d = true -> s7_confirmed tr = true.
Proof. intros P d0 tr d Hb Hh Hc. apply s7_built_fresh in Hb. apply (s7_conf_history P d0 tr d Hb Hh). exact Hc. Qed.

(** ** Commands and replies stay paired *)

(** The line that ends the reply to a command. *)
Definition s7_expects (cmd : bytes) : bytes :=
  if prefixb (bs "AT+NETOPEN") cmd then bs "+NETOPEN: 0"
  else if prefixb (bs "AT+CIPOPEN=") cmd then bs "+CIPOPEN: 0,0"
  else if prefixb (bs "AT+NETCLOSE") cmd then bs "+NETCLOSE: 0"
  else if prefixb (bs "AT+CIPRXGET=2,") cmd then bs "+CIPRXGET: 2,0,"
  else bs "OK".
(** The lines that end it in place: errors, the notice that the connection was
    closed, and "already open" for AT+NETOPEN. *)
Definition s7_answers (w L : bytes) : bool :=
  prefixb w L || prefixb (bs "ERROR") L || prefixb (bs "+IPCLOSE: 0,") L ||
  (if list_eq_dec ascii_dec w (bs "+NETOPEN: 0") then prefixb (bs "+NETOPEN: 1") L else false).
(** What is awaited; [None]: something was sent although a reply was awaited. *)
Definition s7_pair (o : option (option bytes)) (a : act) : option (option bytes) :=
  match o with
  | None => None
  | Some w =>
      match a with
      | aCommand cmd _ => match w with None => Some (Some (s7_expects cmd)) | Some _ => None end
      | aAnnounce _ _ => match w with None => Some (Some (bs ">")) | Some _ => None end
      | aPayload _ | aReceive _ => match w with None => Some (Some (bs "OK")) | Some _ => None end
      | aReset _ => Some (Some (bs "RDY"))
      | aLine _ L => match w with Some x => if s7_answers x L then Some None else o | None => o end
      | _ => o
      end
  end.
Definition s7_awaited (tr : list ent) : option (option bytes) :=
  fold_left (act_log s7_pair (fun o => match o with None => None | Some _ => Some None end)) tr (Some None).

Definition s7_waiting (o : option (option bytes)) (d : dv) : Prop :=
  (rst d = R7Netopen -> wait d = None \/ wait d = Some (bs "+NETOPEN: 0")) /\
  exists w, o = Some w /\ (forall s, w = Some s -> wait d = Some s \/ (s = bs "+CIPRXGET: 2,0," /\ rst d = R7Ciprxget2)).

Lemma s7_waiting_fields : forall o d d', wait d' = wait d -> rst d' = rst d -> s7_waiting o d -> s7_waiting o d'.
Proof. intros o d d' E1 E2. unfold s7_waiting. rewrite E1, E2. auto. Qed.

Lemma s7_says_expects : forall d cmd d', s7_says d cmd d' ->
  (wait d' = Some (s7_expects cmd) \/ (s7_expects cmd = bs "+CIPRXGET: 2,0," /\ rst d' = R7Ciprxget2)) /\
  (rst d' = R7Netopen -> wait d' = Some (bs "+NETOPEN: 0")).
Proof.
  intros d cmd d' H. destruct H as [(_ & -> & (_ & E1 & E2))|[(c & Hi & -> & (_ & E1 & E2))|[(c & Hs & -> & (_ & E1 & E2))|(_ & (_ & _ & E2) & n & -> & _)]]].
  - rewrite E1, E2. split; [left; reflexivity|discriminate].
  - rewrite E1, E2. split; [|discriminate]. left. unfold id_request in Hi. destruct (nth_error _ 1) as [t|]; [|discriminate]. destruct (id_of_code t) as [[]|]; inversion Hi; subst; reflexivity.
  - unfold s7_command in Hs. rewrite E1, E2. destruct (sst d); inversion Hs; subst; cbn [s7_after fst snd]; split; try discriminate; try (left; reflexivity); auto.
    left. destruct (typ d =? UDP)%Z; reflexivity.
  - rewrite E2. split; [right; split; reflexivity|discriminate].
Qed.

(** After a payload, sent or received, the driver waits for "OK". *)
Lemma s7_output_after : forall (U : Prop) d, s7_inv d ->
  (sst d = S7SendCgsockcont -> not_str (apn (ext d)) -> U) ->
  (sst d = S7SendDnsQuery -> not_str (host d) -> U) ->
  wp U (s7_output d) (fun d' => (sst d = S7SendData -> sst d' <> S7SendData -> wait d' = Some (bs "OK") /\ rst d' = R7Ok) /\
    ((0 < toRead d)%Z -> toRead d' = 0%Z -> wait d' = Some (bs "OK") /\ rst d' = R7Ok)).
Proof.
  intros U d H HU1 HU2. unfold s7_output. destruct (wait d) eqn:Ew.
  { cbn [wp]. split; [congruence|lia]. }
  destruct (rst d) eqn:Er; cbn [r7_ok negb wp].
  all: try (split; [congruence|lia]).
  open_inv d H. subst. syms.
  all: try (match goal with |- wp _ (s7_machine _) _ =>
       unfold s7_machine, at_handle_connect, at_handle_disconnect; gs; destruct ss0; gs; syms end).
  all: try (apply HU1; [reflexivity | unfold not_str; congruence]).
  all: try (apply HU2; [reflexivity | assumption]).
  all: try nulip.
  all: clear Hwf Hr Ht Hrw Hrs Hww Hws Hwf2 Hl Hw Hpo Hip Hid Hmx Hipn Hidn HU1 HU2; cases; gs.
  all: split; first [discriminate | (intros; congruence) | (intros; lia) | (intros _ _; split; reflexivity)].
Qed.

Theorem s7_pair_history : forall P d0 tr d, s7_fresh d0 -> s7_hist P d0 tr d -> s7_waiting (s7_awaited tr) d.
Proof.
  intros P d0 tr d HF Hh. unfold s7_awaited.
  apply (act_ghost _ _ _ _ _ (s7_contract P) _ s7_waiting s7_pair _ (fun _ => True)) with (d := d0); auto.
  - intros a d1 q d2 [_ (w & -> & _)] _ _ (_ & R2 & R3 & _). cbn [s7_pair]. split; [rewrite R2; discriminate|].
    eexists. split; [reflexivity|]. intros s E. inversion E; subst. left. exact R3.
  - intros a d1 r d2 b HK Hl [_ Hx]. destruct Hl.
    + destruct a; [|exact (s7_waiting_fields _ _ _ ltac:(eassumption) ltac:(eassumption) HK)]. exact (s7_waiting_fields _ _ _ ltac:(eassumption) ltac:(eassumption) HK).
    + destruct a; exact (s7_waiting_fields _ _ _ ltac:(eassumption) ltac:(eassumption) HK).
    + destruct HK as [K1 (w & -> & K2)]. destruct Hx as [(_ & _ & _ & _ & _ & _ & _ & _ & _ & _ & _ & _ & X1 & X2) _].
      match goal with H : wait d2 = _ \/ _ |- _ => rename H into Hw end.
      split.
      * intro E. destruct Hw as [-> | [-> _]]; [|left; reflexivity]. apply K1. destruct X2 as [X2|X2]; congruence.
      * cbn [s7_pair]. destruct w as [s|]; [|eexists; split; [reflexivity|discriminate]].
        destruct (s7_answers s L) eqn:Ea; [eexists; split; [reflexivity|discriminate]|].
        exists (Some s). split; [reflexivity|]. intros s' E. injection E as <-.
        unfold s7_answers in Ea. apply orb_false_elim in Ea. destruct Ea as [Ea Ea4]. apply orb_false_elim in Ea. destruct Ea as [Ea Ea3].
        apply orb_false_elim in Ea. destruct Ea as [Ea1 Ea2].
        destruct (K2 s eq_refl) as [K3|[-> K3]].
        -- left. destruct Hw as [-> | [_ Hc]]; [assumption|]. exfalso. cbn [sh_clears s7_shape] in Hc.
           destruct Hc as [(w' & Hw' & Hc)|Hc]; [|congruence]. rewrite K3 in Hw'. injection Hw' as <-.
           destruct Hc as [Hc|[Hc|[Hr Hc]]]; try congruence. destruct (K1 Hr) as [K4|K4]; [congruence|]. rewrite K3 in K4.
           destruct (list_eq_dec ascii_dec s (bs "+NETOPEN: 0")) as [|N]; [congruence|]. apply N. congruence.
        -- right. split; [reflexivity|]. destruct (X1 K3) as [X|X]; [assumption|congruence].
  - intros e a d1 d2 b _ [K1 (w & -> & K2)] Hl (I1 & _ & Eo).
    assert (Haf : (sst d1 = S7SendData -> sst d2 <> S7SendData -> wait d2 = Some (bs "OK") /\ rst d2 = R7Ok) /\
      ((0 < toRead d1)%Z -> toRead d2 = 0%Z -> wait d2 = Some (bs "OK") /\ rst d2 = R7Ok)).
    { pose proof (s7_output_after True d1 I1 ltac:(auto) ltac:(auto)) as Hq. rewrite Eo in Hq. exact Hq. }
    destruct Haf as [Hsent Hrecv].
    assert (NW : ~ awaiting r7_ok d1 -> w = None).
    { intro Hn. destruct w as [s|]; [|reflexivity]. exfalso. apply Hn. unfold awaiting. destruct (K2 s eq_refl) as [->|[_ ->]]; [left; discriminate|right; reflexivity]. }
    assert (NR : ~ awaiting r7_ok d1 -> rst d1 = R7Ok).
    { intro Hn. destruct (rst d1) eqn:E; auto; contradiction Hn; right; rewrite E; reflexivity. }
    destruct Hl; cbn [s7_pair].
    + split; [|exists w; split; [reflexivity|]]; match goal with H : wait d2 = _, H' : rst d2 = _ |- _ => rewrite H, H' end; assumption.
    + match goal with H : sh_says _ _ _ _ |- _ => destruct (s7_says_expects _ _ _ H) as [S1 S2] end.
      rewrite NW by assumption. split; [intro E; right; exact (S2 E)|]. eexists. split; [reflexivity|]. intros s E. injection E as <-. exact S1.
    + rewrite NW by assumption. match goal with H : wait d2 = _, H' : rst d2 = _ |- _ => rename H into W1; rename H' into W2 end.
      split; [rewrite W2, NR by assumption; discriminate|]. eexists. split; [reflexivity|]. intros s E. injection E as <-. left. exact W1.
    + rewrite NW by assumption.
      assert (X1 : sst d1 = S7SendData) by (match goal with H : sh_insend _ (sst d1) = true |- _ => cbn in H; destruct (sst d1); try discriminate; reflexivity end).
      assert (X2 : sst d2 <> S7SendData) by (match goal with H : sh_insend _ (sst d2) = false |- _ => cbn in H; intro X; rewrite X in H; discriminate end).
      destruct (Hsent X1 X2) as [W1 W2]. split; [rewrite W2; discriminate|]. eexists. split; [reflexivity|]. intros s E. injection E as <-. left. exact W1.
    + rewrite NW by assumption. destruct Hrecv as [W1 W2]; [assumption..|]. split; [rewrite W2; discriminate|].
      eexists. split; [reflexivity|]. intros s E. injection E as <-. left. exact W1.
  - intros e a d1 d2 _ _ HK _ _ _ _ _ E2 E3 _. exact (s7_waiting_fields _ _ _ E3 E2 HK).
  - intros a d1 d2 HI [_ (w & -> & _)] _ E. destruct (s7_reset_exact P d1 d2 HI E) as (y & -> & _). split; [discriminate|]. exists None. split; [reflexivity|discriminate].
  - apply Forall_forall. auto.
  - destruct HF as (_ & _ & F1 & F2 & F3 & F4 & _). split; [rewrite F2; discriminate|]. exists None. split; [reflexivity|discriminate].
Qed.
