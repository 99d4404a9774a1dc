(** Theorems about histories of the SIM800 driver. *)
From Coq Require Import String Ascii ZArith List Bool Arith Lia ZifyBool ZifyNat.
From Verif Require Import Base QueueSpec LineSpec SerialSpec Ring RingProofs LineRing LineRingProofs Serial SerialProofs
  SerStep TaskMacros CStr CStrProofs Dev DevProofs SimDev SimProofs SimSpec SimParse SimLog Sym DrvStep DrvCommon DrvRun DrvHist
  Sim800 Sim8Spec Sim8Proofs Sim8Ctl Sim8CtlIn Sim8Run Sim8Hist.
Import ListNotations.
Local Open Scope nat_scope.
Ltac Zify.zify_post_hook ::= Z.div_mod_to_equations.
Local Notation dv := (dev s8send s8reply simx).
Local Notation ent := (@entry simop).

(** A driver object just constructed, on a serial port in any state, with
    non-empty buffers of a size the counters can hold. *)
Definition s8_built (d : dv) : Prop :=
  exists s opened rb wb raw_lbuf raw_ip raw_id raw_typ,
    serial_wf s /\ fits (rsize (lr (srx s))) /\ fits (rsize (lr (stx s))) /\ rb <> [] /\ wb <> [] /\ fits (length wb) /\
    length raw_lbuf = 61 /\ length raw_ip = 16 /\ length raw_id = 24 /\
    s8_new s opened rb wb raw_lbuf raw_ip raw_id raw_typ = Ok d.

(** Calls with valid arguments: pointers to strings, and arrays as long as the
    length passed with them. *)
Definition s8_valid (h : list (dop simop * list (list isr))) : Prop := Forall (fun p => goodop s8_goodx (fst p)) h.

(** The histories: calls, interrupts, results, port events and actions. *)
Definition s8_hist (P : plat) : dv -> list ent -> dv -> Prop := hist (s8_driver P) (s8_shape P) s8_all s8_goodx.
Definition s8_step (P : plat) : dv -> ent -> dv -> Prop := estep (s8_driver P) (s8_shape P) s8_all s8_goodx.

Lemma s8_built_fresh : forall d, s8_built d -> s8_fresh d.
Proof.
  intros d (s & o & rb & wb & rl & ri & ri' & rt & H1 & H2 & H3 & H4 & H5 & H6 & H7 & H8 & H9 & E).
  destruct (s8_new_ok s o rb wb rl ri ri' rt H1 H2 H3 H4 H5 H6 H7 H8 H9) as (d' & E' & F). congruence.
Qed.

Theorem s8_every_run : forall P d0 h d outs, s8_built d0 -> s8_valid h -> d_run (s8_driver P) d0 h = Ok (d, outs) ->
  exists tr, s8_hist P d0 tr d /\ map (fun e => (e_op e, e_sch e)) tr = h /\ map (fun e => (e_out e, e_ev e)) tr = outs.
Proof.
  intros P d0 h d outs Hb Hv E. apply s8_built_fresh in Hb. destruct Hb as [HI _].
  destruct (run_hist _ _ _ _ _ (s8_contract P) h d0 d outs HI Hv E) as (tr & A & _ & B & C). exists tr. auto.
Qed.

(** ** Memory safety *)

(** The one unsafe input: the line completing an answer to AT+CDNSGIP whose
    address text has more than 15 characters. *)
Definition s8_dns_overflow (d : dv) : Prop :=
  rst d = R8Cdnsgip /\
  exists y tk L a, ioeff (io d) y tk [] /\ L = pending d ++ tk /\ whole_line L /\
    prefixb (bs "+CDNSGIP: 1") L = true /\ 4 <= quotes (cbody L) <= 10 /\ dns_ip (cbody L) = Some a /\ 15 < length a.

Lemma s8_long_overflow : forall d, s8_all d -> s8_long_dns d -> s8_dns_overflow d.
Proof.
  intros d ((Hd & _) & _) (d1 & a & Ef & Hr & [Hg1 Hg2] & Ha & Hl). split; [assumption|].
  pose proof (fill_ok _ _ _ d ltac:(apply Hd) ltac:(apply Hd)) as Hf. rewrite Ef in Hf. cbn [wp] in Hf.
  destruct Hf as [[E F]|[(y & tk & lb & E & _)|(y & tk & lb & r & E & F & HI & Hlb & Htk & Hwl & Hlb2)]]; inversion E. subst d1.
  gs. cbn [lbuf set_lbfill set_lbuf] in *. rewrite Hlb2 in *. rewrite str_body_line in *. rewrite prefixb_line in Hg1 by lfree.
  exists y, tk, (pending d ++ tk), a. splits; auto; lia.
Qed.

Theorem s8_safe : forall P d0 h u, s8_built d0 -> s8_valid h -> d_run (s8_driver P) d0 h = UB u ->
  exists h1 oo sch h2 d1 outs, h = h1 ++ (OpRun oo, sch) :: h2 /\ d_run (s8_driver P) d0 h1 = Ok (d1, outs) /\
    s8_dns_overflow (during sch d1).
Proof.
  intros P d0 h u Hb Hv E. apply s8_built_fresh in Hb. destruct Hb as [HI _].
  destruct (run_safe _ _ _ _ _ (s8_contract P) h d0 u HI Hv E) as (h1 & o & sch & h2 & d1 & outs & E1 & E2 & I1 & B).
  destruct o; cbn [s8_may_fail] in B; try contradiction. exists h1, open_ok, sch, h2, d1, outs. splits; auto.
  apply s8_long_overflow; [|exact B]. apply (during_inv _ _ _ _ _ (s8_contract P)). assumption.
Qed.

(** ** Connected only after the modem confirmed *)
Definition s8_confirm (c : bool) (a : act) : bool :=
  match a with
  | aLine _ L => c || prefixb (bs "0, CONNECT OK") L
  | aCommand cmd _ => if prefixb (bs "AT+CIPSTART=") cmd then false else c
  | _ => c
  end.
Definition s8_confirmed (tr : list ent) : bool := fold_left (act_log s8_confirm (fun _ => false)) tr false.

Lemma s8_says_cases : forall d cmd d', s8_says d cmd d' ->
  (prefixb (bs "AT+CIPSTART=") cmd = true -> sst d = S8SendCipstart).
Proof.
  intros d cmd d' H Hp. destruct H as [(_ & -> & _)|[(c & Hi & -> & _)|[(c & Hs & -> & _)|(_ & _ & n & -> & _)]]].
  - discriminate Hp.
  - unfold id_request in Hi. destruct (nth_error _ 1) as [t|]; [|discriminate]. destruct (id_of_code t) as [[]|]; inversion Hi; subst; discriminate Hp.
  - unfold s8_command in Hs. destruct (sst d); inversion Hs; subst; try reflexivity; discriminate Hp.
  - discriminate Hp.
Qed.

Lemma s8_conf_mono : forall (C C' : Prop) d, (C -> C') -> s8_conf C d -> s8_conf C' d.
Proof. intros C C' d H (K1 & K2 & K3 & K4). unfold s8_conf. splits; auto. intro E. destruct (K1 E) as [?|[?|?]]; auto. Qed.

Lemma s8_conf_fields : forall C d d', sst d' = sst d -> wait d' = wait d -> rst d' = rst d -> cst d' = cst d -> fReset (fl d') = fReset (fl d) ->
  s8_conf C d -> s8_conf C d'.
Proof. intros C d d' E1 E2 E3 E4 E5. unfold s8_conf, ip_is_connected. rewrite E1, E2, E3, E4, E5. auto. Qed.

Lemma s8_reset_exact : forall P d d', s8_all d -> drv_reset (s8_driver P) d = Ok d' -> exists y, d' = s8_reseted y d /\ rxav y = 0 /\ lring_is (srx (ser y)) [].
Proof.
  intros P d d' (HI & _) E. cbn [drv_reset s8_driver] in E.
  assert (H : wp False (sim_reset_states S8NotConnected R8Ok d) (fun d' => exists y, d' = s8_reseted y d /\ rxav y = 0 /\ lring_is (srx (ser y)) [])).
  { apply wp_sim_reset_states; [apply HI|apply HI|]. intros y ev E1 E2 E3 E4 E5 E6 E7 E8. exists y. splits; auto. }
  rewrite E in H. exact H.
Qed.

Lemma s8_ictl_conf : forall L d d' (C : Prop), s8_ictl L d d' -> (prefixb s8_opened L = true -> C) -> s8_conf C d -> s8_conf C d'.
Proof. intros L d d' C (_ & _ & _ & H & _). auto. Qed.

Lemma s8_same_conf : forall d d' C, s8_same d d' -> s8_conf C d -> s8_conf C d'.
Proof. intros d d' C (A1 & A2 & A3 & A4 & A5 & A6 & A7 & A8 & _). apply s8_conf_fields; assumption. Qed.

Theorem s8_conf_history : forall P d0 tr d, s8_fresh d0 -> s8_hist P d0 tr d -> s8_conf (s8_confirmed tr = true) d.
Proof.
  intros P d0 tr d HF Hh. unfold s8_confirmed.
  apply (act_ghost _ _ _ _ _ (s8_contract P) _ (fun c d => s8_conf (c = true) d) s8_confirm (fun _ => false) (fun _ => True)) with (d := d0); auto.
  - intros a d1 (K1 & K2 & K3 & K4). unfold s8_conf. cbn [sst set_sst sh_error s8_shape s8_rank wait fl rst]. splits; auto.
    + discriminate.
    + intros [?|?]; [lia|auto].
    + lia.
  - intros a d1 q d2 (K1 & K2 & K3 & K4) Hr (_ & _ & _ & _ & _ & _ & _ & Hc & _) (R1 & R2 & R3 & R4 & _). cbn [s8_confirm].
    unfold s8_conf, s8_reset_state, ip_is_connected in *. rewrite R1, R2, Hc. destruct (_ || _); cbn [s8_rank]; splits; auto; try discriminate.
    all: try (intros [?|?]; [lia|discriminate]). all: lia.
  - intros a d1 r d2 b HK Hl [_ Hx]. destruct b; cbn [s8_confirm]; try exact (s8_same_conf _ _ _ Hx HK); try (inversion Hl; fail).
    destruct Hx as [Hx _]. eapply s8_ictl_conf; [exact Hx|intro E; unfold s8_opened in E; rewrite E; apply orb_true_r|].
    revert HK. apply s8_conf_mono. intros ->. reflexivity.
  - intros e a d1 d2 b _ HK Hl (_ & Hx & _).
    assert (HG : s8_conf (a = true) d2) by (destruct Hx as (_ & _ & _ & _ & _ & _ & _ & _ & Hx & _); auto).
    destruct Hl; cbn [s8_confirm]; auto. destruct (prefixb _ cmd) eqn:Ep; [|exact HG].
    apply (s8_conf_mono False); [intros []|].
    destruct Hx as (_ & _ & _ & _ & _ & _ & _ & _ & _ & _ & _ & _ & Hx).
    apply (Hx ltac:(eapply s8_says_cases; eauto)) with (C := a = true); [|exact HK].
    match goal with H : ~ awaiting _ _ |- _ => revert H end. clear. unfold awaiting, s8_shape, sh_ok. intro H.
    destruct (rst d1) eqn:E; auto; contradiction H; right; reflexivity.
  - intros e a d1 d2 _ _ HK _ _ _ Hf E1 E2 E3 E4. revert HK. apply s8_conf_fields; auto. apply Hf.
  - intros a d1 d2 HI _ _ E. destruct (s8_reset_exact P d1 d2 HI E) as (y & -> & _). unfold s8_conf. cbn. splits; try discriminate; auto.
    all: try (intros [?|?]; [lia|discriminate]).
  - apply Forall_forall. auto.
  - destruct HF as (_ & _ & F1 & F2 & F3 & F4 & _). unfold s8_conf, ip_is_connected. rewrite F1, F2, F4. cbn. splits; try discriminate; auto.
    all: try (intros [?|?]; [lia|discriminate]).
Qed.

Theorem s8_connected_confirmed : forall P d0 tr d, s8_built d0 -> s8_hist P d0 tr d -> ip_is_connected d = true -> s8_confirmed tr = true.
Proof. intros P d0 tr d Hb Hh Hc. apply s8_built_fresh in Hb. apply (s8_conf_history P d0 tr d Hb Hh). exact Hc. Qed.

(** ** Commands and replies stay paired *)

(** What ends the reply to a command: a line beginning with a text, or one
    with an address, that is with three dots. *)
Inductive s8_want : Type := w8Text (s : bytes) | w8Address.
Definition s8_expects (cmd : bytes) : s8_want :=
  if prefixb (bs "AT+CIFSR") cmd then w8Address
  else w8Text (
    if prefixb (bs "AT+CIPSTART=") cmd then bs "0, CONNECT OK"
    else if prefixb (bs "AT+CIPCLOSE") cmd then bs "0, CLOSE OK"
    else if prefixb (bs "AT+CIPSHUT") cmd then bs "SHUT OK"
    else if prefixb (bs "AT+CIPRXGET=2,") cmd then bs "+CIPRXGET: 2,0,"
    else bs "OK").
(** The lines that end it in place: errors, and the notice that the connection
    was closed. *)
Definition s8_answers (w : s8_want) (L : bytes) : bool :=
  match w with
  | w8Text s => prefixb s L
  | w8Address => count_occ ascii_dec (cbody L) "."%char =? 3
  end || prefixb (bs "+PDP: DEACT") L || prefixb (bs "+CME ERROR") L || prefixb (bs "ERROR") L || prefixb (bs "0, CLOSED") L.
(** What is awaited; [None]: something was sent although a reply was awaited. *)
Definition s8_pair (o : option (option s8_want)) (a : act) : option (option s8_want) :=
  match o with
  | None => None
  | Some w =>
      match a with
      | aCommand cmd _ => match w with None => Some (Some (s8_expects cmd)) | Some _ => None end
      | aAnnounce _ _ => match w with None => Some (Some (w8Text (bs ">"))) | Some _ => None end
      | aPayload _ => match w with None => Some (Some (w8Text (bs "0, SEND OK"))) | Some _ => None end
      | aReceive _ => match w with None => Some (Some (w8Text (bs "OK"))) | Some _ => None end
      | aReset _ => Some None
      | aLine _ L => match w with Some x => if s8_answers x L then Some None else o | None => o end
      | _ => o
      end
  end.
Definition s8_awaited (tr : list ent) : option (option s8_want) :=
  fold_left (act_log s8_pair (fun o => match o with None => None | Some _ => Some None end)) tr (Some None).

Definition s8_waiting (o : option (option s8_want)) (d : dv) : Prop :=
  exists w, o = Some w /\ (forall s, w = Some (w8Text s) -> wait d = Some s \/ (s = bs "+CIPRXGET: 2,0," /\ rst d = R8Ciprxget2)) /\
    (w = Some w8Address -> rst d = R8Cifsr).

Lemma s8_waiting_fields : forall o d d', wait d' = wait d -> rst d' = rst d -> s8_waiting o d -> s8_waiting o d'.
Proof. intros o d d' E1 E2. unfold s8_waiting. rewrite E1, E2. auto. Qed.

Lemma s8_says_expects : forall d cmd d', s8_says d cmd d' ->
  (forall s, s8_expects cmd = w8Text s -> wait d' = Some s \/ (s = bs "+CIPRXGET: 2,0," /\ rst d' = R8Ciprxget2)) /\
  (s8_expects cmd = w8Address -> rst d' = R8Cifsr).
Proof.
  assert (K : forall (d' : dv) cmd x, s8_expects cmd = w8Text x -> wait d' = Some x \/ (x = bs "+CIPRXGET: 2,0," /\ rst d' = R8Ciprxget2) ->
    (forall s, s8_expects cmd = w8Text s -> wait d' = Some s \/ (s = bs "+CIPRXGET: 2,0," /\ rst d' = R8Ciprxget2)) /\ (s8_expects cmd = w8Address -> rst d' = R8Cifsr)).
  { intros d' cmd x Ex H. rewrite Ex. split; [intros s E; injection E as <-; exact H|discriminate]. }
  intros d cmd d' H. destruct H as [(_ & -> & (_ & E1 & E2))|[(c & Hi & -> & (_ & E1 & E2))|[(c & Hs & -> & (_ & E1 & E2))|(_ & (_ & _ & E2) & n & -> & _)]]].
  - apply (K _ _ (bs "OK")); [reflexivity|left; exact E1].
  - unfold id_request in Hi. destruct (nth_error _ 1) as [t|]; [|discriminate]. destruct (id_of_code t) as [[]|]; try discriminate Hi; injection Hi as <-;
      (apply (K _ _ (bs "OK")); [reflexivity|left; exact E1]).
  - unfold s8_command in Hs. rewrite E2. destruct (sst d); try discriminate Hs; injection Hs as <-; try destruct (_ =? _)%Z;
      try (split; [discriminate|reflexivity]);
      rewrite <- E2; (eapply K; [reflexivity|left; exact E1]).
  - apply (K _ _ (bs "+CIPRXGET: 2,0,")); [reflexivity|right; split; [reflexivity|exact E2]].
Qed.

(** While an address is awaited, only a line with three dots, or an error,
    ends that. *)
Lemma s8_cifsr_line : forall P d ret d' L, s8_handles P d ret d' L -> rst d = R8Cifsr -> rst d' = R8Cifsr \/ s8_answers w8Address L = true.
Proof.
  intros P d ret d' L (r & y & Hlen & _ & HI & H) Er.
  set (x := line_at L r y d) in *. assert (HL : lbuf x = L ++ NUL :: r) by reflexivity.
  change (rst x = R8Cifsr) in Er. clearbody x. clear y d. rename x into d.
  assert (Hn : In NUL (lbuf d)) by (rewrite HL; apply in_or_app; right; left; reflexivity).
  assert (Hl : length (lbuf d) = 61) by (rewrite HL; exact Hlen).
  assert (Hc : forall d1 d2 : dv, length (lbuf d1) = 61 ->
    (if s8_rank S8Connected <=? s8_rank (sst d1) then let* d := sim_check_connection (bs "0, CLOSED") d1 in Ok (false, d) else Ok (false, d1))%res = Ok (ret, d2) ->
    rst d2 = rst d1).
  { intros d1 d2 Hl1 E. destruct (_ <=? _); [|injection E as <- <-; auto].
    unfold sim_check_connection in E. rewrite !lstarts_eq in E by (rewrite ?Hl1; cbn; lia || lfree). cbn [bind] in E.
    destruct (prefixb (bs "+CIPRXGET: 1,0") (lbuf d1)); [cbn [bind] in E; injection E as <- <-; auto|].
    destruct (prefixb (bs "0, CLOSED") (lbuf d1)); cbn [bind] in E; injection E as <- <-; auto. }
  unfold s8_parse in H. destruct (s8_is_error d) as [e|]; [|discriminate]. cbn [bind] in H. destruct e; [injection H as <- <-; left; exact Er|].
  assert (Hs : exists d1, s8_standard_reply d = Ok d1 /\ lbuf d1 = lbuf d /\ rst d1 = rst d).
  { unfold s8_standard_reply in *. destruct (wait d) as [w|]; [|eauto]. destruct (lmatch _ _ _) as [m|]; [|discriminate H]. cbn [bind] in *.
    destruct m; eexists; (split; [reflexivity|split; reflexivity]). }
  destruct Hs as (d1 & Es & A1 & A2). rewrite Es in H. cbn [bind] in H. unfold s8_special_reply in H. rewrite A2, Er in H.
  rewrite A1, count_char_spec in H by (assumption || discriminate). cbn [bind] in H. rewrite HL, str_body_line in H. unfold s8_answers.
  destruct (_ =? 3); [right; reflexivity|]. left. rewrite <- Er, <- A2. exact (Hc _ _ ltac:(rewrite A1; exact Hl) H).
Qed.

(** After a payload, sent or received, the driver waits for "OK". *)
Lemma s8_output_after : forall (U : Prop) d, s8_inv d ->
  (sst d = S8SendCstt -> not_str (apn (ext d)) -> U) ->
  (sst d = S8SendDnsQuery -> not_str (host d) -> U) ->
  wp U (s8_output d) (fun d' => (sst d = S8SendData -> sst d' <> S8SendData -> wait d' = Some (bs "0, SEND OK") /\ rst d' = R8Ok) /\
    ((0 < toRead d)%Z -> toRead d' = 0%Z -> wait d' = Some (bs "OK") /\ rst d' = R8Ok)).
Proof.
  intros U d H HU1 HU2. unfold s8_output. destruct (wait d) eqn:Ew.
  { cbn [wp]. split; [congruence|lia]. }
  destruct (rst d) eqn:Er; cbn [r8_ok negb wp].
  all: try (split; [congruence|lia]).
  open_inv d H. subst. syms.
  all: try (match goal with |- wp _ (s8_machine _) _ =>
       unfold s8_machine, at_handle_connect, at_handle_disconnect; gs; destruct ss0; gs; syms end).
  all: try (apply HU1; [reflexivity | unfold not_str; congruence]).
  all: try (apply HU2; [reflexivity | assumption]).
  all: try nulip.
  all: clear Hwf Hr Ht Hrw Hrs Hww Hws Hwf2 Hl Hw Hpo Hip Hid Hmx Hipn Hidn HU1 HU2; cases; gs.
  all: split; first [discriminate | (intros; congruence) | (intros; lia) | (intros _ _; split; reflexivity)].
Qed.

Theorem s8_pair_history : forall P d0 tr d, s8_fresh d0 -> s8_hist P d0 tr d -> s8_waiting (s8_awaited tr) d.
Proof.
  intros P d0 tr d HF Hh. unfold s8_awaited.
  assert (KT : forall (d : dv) s, wait d = Some s -> s8_waiting (Some (Some (w8Text s))) d).
  { intros d1 s E. eexists. split; [reflexivity|]. split; [|discriminate]. intros s' E'. injection E' as <-. left. exact E. }
  assert (KN : forall d : dv, s8_waiting (Some None) d) by (intro d1; eexists; split; [reflexivity|]; split; discriminate).
  apply (act_ghost _ _ _ _ _ (s8_contract P) _ s8_waiting s8_pair _ (fun _ => True)) with (d := d0); auto.
  - intros a d1 q d2 (w & -> & _) _ _ (_ & R2 & R3 & _). apply KN.
  - intros a d1 r d2 b HK Hl [_ Hx]. destruct Hl.
    + destruct a; exact (s8_waiting_fields _ _ _ ltac:(eassumption) ltac:(eassumption) HK).
    + destruct a; exact (s8_waiting_fields _ _ _ ltac:(eassumption) ltac:(eassumption) HK).
    + destruct HK as (w & -> & K2 & K3). destruct Hx as [(_ & _ & _ & _ & _ & _ & _ & _ & _ & _ & _ & _ & X1 & X2) Hx].
      match goal with H : wait d2 = _ \/ _ |- _ => rename H into Hw end.
      cbn [s8_pair]. destruct w as [s|]; [|apply KN].
      destruct (s8_answers s L) eqn:Ea; [apply KN|].
      exists (Some s). split; [reflexivity|]. split.
      * intros s' E. injection E as ->.
        unfold s8_answers in Ea. apply orb_false_elim in Ea as [Ea Ea5]. apply orb_false_elim in Ea as [Ea Ea4].
        apply orb_false_elim in Ea as [Ea Ea3]. apply orb_false_elim in Ea as [Ea1 Ea2].
        destruct (K2 s' eq_refl) as [K4|[-> K4]].
        -- left. destruct Hw as [-> | [_ Hc]]; [assumption|]. exfalso. cbn [sh_clears s8_shape] in Hc.
           destruct Hc as [(w' & Hw' & Hc)|[[Hc|[Hc|Hc]]|Hc]]; congruence.
        -- right. split; [reflexivity|]. destruct (X1 K4) as [X|X]; [assumption|congruence].
      * intros E. injection E as ->. destruct (s8_cifsr_line _ _ _ _ _ Hx (K3 eq_refl)) as [E|E]; congruence.
  - intros e a d1 d2 b _ (w & -> & K2 & K3) Hl (I1 & _ & Eo).
    assert (Haf : (sst d1 = S8SendData -> sst d2 <> S8SendData -> wait d2 = Some (bs "0, SEND OK") /\ rst d2 = R8Ok) /\
      ((0 < toRead d1)%Z -> toRead d2 = 0%Z -> wait d2 = Some (bs "OK") /\ rst d2 = R8Ok)).
    { pose proof (s8_output_after True d1 I1 ltac:(auto) ltac:(auto)) as Hq. rewrite Eo in Hq. exact Hq. }
    destruct Haf as [Hsent Hrecv].
    assert (NW : ~ awaiting r8_ok d1 -> w = None).
    { intro Hn. destruct w as [[s|]|]; [| |reflexivity]; exfalso; apply Hn; unfold awaiting.
      - destruct (K2 s eq_refl) as [->|[_ ->]]; [left; discriminate|right; reflexivity].
      - rewrite (K3 eq_refl). right. reflexivity. }
    destruct Hl; cbn [s8_pair].
    + apply (s8_waiting_fields _ d1); [assumption..|]. exists w. splits; auto.
    + match goal with H : sh_says _ _ _ _ |- _ => destruct (s8_says_expects _ _ _ H) as [S1 S2] end.
      rewrite NW by assumption. eexists. split; [reflexivity|]. split; [intros s E; injection E as E; exact (S1 s E)|intros E; injection E as E; exact (S2 E)].
    + rewrite NW by assumption. apply KT. assumption.
    + rewrite NW by assumption. apply KT.
      assert (X1 : sst d1 = S8SendData) by (match goal with H : sh_insend _ (sst d1) = true |- _ => cbn in H; destruct (sst d1); try discriminate; reflexivity end).
      assert (X2 : sst d2 <> S8SendData) by (match goal with H : sh_insend _ (sst d2) = false |- _ => cbn in H; intro X; rewrite X in H; discriminate end).
      apply (Hsent X1 X2).
    + rewrite NW by assumption. apply KT. apply Hrecv; assumption.
  - intros e a d1 d2 _ _ HK _ _ _ _ _ E2 E3 _. exact (s8_waiting_fields _ _ _ E3 E2 HK).
  - intros a d1 d2 HI (w & -> & _) _ E. apply KN.
  - apply Forall_forall. auto.
Qed.
