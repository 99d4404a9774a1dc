(** Signal strength, resolved address and identification in histories of the
    SIM7x00 driver. *)
From Coq Require Import String Ascii ZArith List Bool Arith Lia ZifyBool ZifyNat.
From Verif Require Import Base QueueSpec LineSpec SerialSpec Ring RingProofs LineRing LineRingProofs Serial SerialProofs
  SerStep TaskMacros CStr CStrProofs Dev DevProofs SimDev SimProofs SimSpec SimParse SimLog Sym DrvStep DrvCommon DrvRun DrvHist
  Sim7x00 Sim7Spec Sim7Proofs Sim7Ctl Sim7CtlIn Sim7Run Sim7Hist Sim7Thms Sim7More Sim7Line.
Import ListNotations.
Local Open Scope nat_scope.
Ltac Zify.zify_post_hook ::= Z.div_mod_to_equations.
Local Notation dv := (dev s7send s7reply simx).
Local Notation ent := (@entry simop).
Local Notation olab7 := (olab r7_ok s7_says s7_tail s7_insend true).
(** Proves a goal that is one of the conjuncts of H (faster than tauto). *)
Ltac pick H :=
  lazymatch type of H with
  | _ /\ _ => let A := fresh in let B := fresh in destruct H as [A B]; first [pick A|pick B]
  | _ => exact H
  end.

Definition s7_out_req (d d' : dv) : Prop :=
  (ext d' = ext d \/ (ext d' = set_idbuf (list_set (idbuf (ext d)) 1 (id_code idNone)) (ext d) /\ nth_error (idbuf (ext d)) 0 = Some NUL)) /\
  (rst d' = R7RequestID -> rst d = R7RequestID \/ nth_error (idbuf (ext d)) 0 = Some NUL) /\
  (sst d = S7SendDnsQuery -> sst d' = sst d \/ rst d' = R7Cdnsgip \/ s7_rank (sst d') < 10) /\
  (wait d' = Some (bs ">") -> wait d = Some (bs ">") \/ sst d' = S7SendData /\ rst d' = R7Ok).

Lemma s7_output_req : forall (U : Prop) d, s7_inv d ->
  (sst d = S7SendCgsockcont -> not_str (apn (ext d)) -> U) ->
  (sst d = S7SendDnsQuery -> not_str (host d) -> U) ->
  wp U (s7_output d) (s7_out_req d).
Proof.
  intros U d H HU1 HU2. unfold s7_output. destruct (wait d) eqn:Ew.
  { cbn [wp]. unfold s7_out_req. auto. }
  destruct (rst d) eqn:Er; cbn [r7_ok negb wp].
  all: try (unfold s7_out_req; rewrite ?Er; auto; fail).
  open_inv d H. subst. syms.
  all: try (match goal with |- wp _ (s7_machine _) _ =>
       unfold s7_machine, at_handle_connect, at_handle_disconnect; gs; destruct ss0; gs; syms end).
  all: try (apply HU1; [reflexivity | unfold not_str; congruence]).
  all: try (apply HU2; [reflexivity | assumption]).
  all: try nulip.
  all: clear Hwf Hr Ht Hrw Hrs Hww Hws Hwf2 Hl Hw Hpo Hip Hid Hmx Hipn Hidn HU1 HU2; cases; unfold s7_out_req; gs; cbn [s7_rank].
  all: split; [first [left; reflexivity | right; split; [reflexivity|assumption]] | split; [first [discriminate | (intros _; right; assumption)] | 
    split; [first [discriminate | (intros _; first [left; reflexivity | right; left; reflexivity | right; right; lia])] |
    first [discriminate | (intros _; right; split; reflexivity)]]]].
Qed.

Lemma s7_out_effect : forall d d' b, olab7 d d' b -> s7_out_ext d b d' -> rssi d' = rssi d /\ s7_out_req d d' /\
  match b with
  | aCommand cmd _ => s7_says d cmd d'
  | aPayload _ | aReceive _ => rst d' = R7Ok
  | _ => rst d' = rst d
  end.
Proof.
  intros d d' b Hl (HI & Hc & Ho). split; [apply Hc|]. split.
  - pose proof (s7_output_req True d HI (fun _ _ => I) (fun _ _ => I)) as H. rewrite Ho in H. exact H.
  - pose proof (s7_output_after True d HI (fun _ _ => I) (fun _ _ => I)) as H. rewrite Ho in H. destruct H as [A B].
    destruct Hl; auto.
    + apply A; [destruct (sst d); try discriminate; reflexivity|intro E; rewrite E in *; discriminate].
    + apply B; assumption.
Qed.

(** ** Signal strength *)

Lemma s7_says_csq : forall d cmd d', s7_says d cmd d' -> same cmd (bs "AT+CSQ" ++ [CR; LF]) = true <-> rst d' = R7Csq.
Proof.
  intros d cmd d' H. rewrite same_true. destruct H as [(_ & -> & (_ & _ & ->))|[(c & Hi & -> & (_ & _ & ->))|[(c & Hs & -> & (_ & _ & ->))|(_ & (_ & _ & ->) & n & -> & _)]]].
  - split; reflexivity.
  - split; [|discriminate]. intro E. apply app_inv_tail in E. subst c. exfalso. unfold id_request in Hi. destruct (nth_error _ 1) as [t|]; [|discriminate].
    destruct (id_of_code t) as [[]|]; discriminate Hi.
  - split; [|destruct (sst d); discriminate]. intro E. apply app_inv_tail in E. subst c. exfalso.
    unfold s7_command in Hs. destruct (sst d); try destruct (_ =? _)%Z; discriminate Hs.
  - split; discriminate.
Qed.

Theorem s7_rssi_history : forall P d0 tr d, s7_fresh d0 -> s7_hist P d0 tr d ->
  rssi d = fst (rssi_log P tr) /\ (snd (rssi_log P tr) = true <-> rst d = R7Csq).
Proof.
  intros P d0 tr d HF Hh. unfold rssi_log.
  apply (call_ghost _ _ _ _ _ (s7_contract P) _ (fun acc d => rssi d = fst acc /\ (snd acc = true <-> rst d = R7Csq))
           (rssi_act P) rssi_call (fun _ => True)) with (d := d0); auto.
  - intros a d1 q d2 [K1 K2] _ _ (_ & R2 & _ & _ & _ & R6). cbn [rssi_act fst snd]. rewrite R2, R6. split; [exact K1|]. split; discriminate.
  - intros a d1 r d2 b [K1 K2] Hl [_ Hx]. destruct b as [q|tk|tk1 tk2|tk line| |cmd q|n q|q|tk]; cbn [rssi_act]; try (inversion Hl; fail);
      try (destruct Hx as (_ & X1 & _ & _ & X2 & _); rewrite X1, X2; auto; fail).
    destruct Hx as [HC Hx]. apply s7_line_effect in Hx. assert (HR : rst d2 = rst d1 \/ rst d2 = R7Ok) by (unfold s7_ictl in HC; pick HC).
    unfold s7_effect in Hx. destruct (s7_refused line d1) eqn:Er.
    + assert (Hp : prefixb (bs "+CSQ: ") line = false).
      { unfold s7_refused in Er. destruct (wait d1); [|discriminate]. apply andb_true_iff in Er as [_ Er].
        apply prefixb_spec in Er as [t ->]. reflexivity. }
      rewrite Hp, andb_false_r. destruct Hx as (X1 & _ & X3). rewrite X1, X3. auto.
    + destruct (snd a) eqn:Ea; cbn [andb].
      * assert (Er1 : rst d1 = R7Csq) by (apply K2; reflexivity). rewrite Er1 in Hx. destruct Hx as [_ Hx].
        destruct (prefixb (bs "+CSQ: ") line); cbn [fst snd]; destruct Hx as [X1 X2]; rewrite X1, X2; [split; [reflexivity|split; discriminate]|].
        rewrite Ea. split; [exact K1|tauto].
      * assert (Er1 : rst d1 <> R7Csq) by (intro E; apply K2 in E; discriminate).
        assert (Hr2 : rssi d2 = rssi d1) by (destruct (rst d1); try (apply Hx); congruence).
        rewrite Hr2, Ea. split; [exact K1|]. split; [discriminate|]. intro E. destruct HR as [HR|HR]; congruence.
  - intros e a d1 d2 b _ [K1 K2] Hl Hx. destruct (s7_out_effect _ _ _ Hl Hx) as (E1 & _ & E2).
    destruct b; cbn [rssi_act fst snd]; try (inversion Hl; fail); rewrite E1; (split; [exact K1|]); try (rewrite E2; exact K2).
    + exact (s7_says_csq _ _ _ E2).
    + rewrite E2. split; [|discriminate]. intro E. exfalso. apply K2 in E. inversion Hl as [| | |? Ha|]; subst. apply Ha. right. unfold s7_shape, sh_ok. rewrite E. reflexivity.
    + rewrite E2. split; [|discriminate]. intro E. exfalso. apply K2 in E. inversion Hl as [| | | |? Ha]; subst. apply Ha. right. unfold s7_shape, sh_ok. rewrite E. reflexivity.
  - intros e a d1 d2 _ _ [K1 K2] Hn Hcr (_ & _ & _ & _ & _ & F & _) _ E2 _ _. rewrite E2. unfold rssi_call.
    destruct F as [F|[F1 F2]]; [|rewrite F1; split; [exact F2|exact K2]]. rewrite F. destruct (e_op e) eqn:Eo; auto; try discriminate Hn.
    destruct Hcr as [_ Hcr]. injection Hcr as _ <-. split; [exact (eq_sym F)|exact K2].
  - intros e a d1 d2 HI _ Eo _ E. unfold rssi_call. rewrite Eo. destruct (s7_reset_exact P d1 d2 HI E) as (y & -> & _). cbn. split; [reflexivity|split; discriminate].
  - apply Forall_forall. auto.
  - destruct HF as (_ & _ & _ & F2 & _ & _ & _ & _ & _ & _ & _ & _ & _ & _ & _ & F3 & _). rewrite F2, F3. split; [reflexivity|split; discriminate].
Qed.

(** ** Resolved address *)

Lemma s7_says_dns : forall d cmd d', s7_says d cmd d' -> prefixb (bs "AT+CDNSGIP=") cmd = true <-> rst d' = R7Cdnsgip.
Proof.
  intros d cmd d' H. destruct H as [(_ & -> & (_ & _ & ->))|[(c & Hi & -> & (_ & _ & ->))|[(c & Hs & -> & (_ & _ & ->))|(_ & (_ & _ & ->) & n & -> & _)]]].
  - split; discriminate.
  - split; [|discriminate]. intro E. exfalso. unfold id_request in Hi. destruct (nth_error _ 1) as [t|]; [|discriminate].
    destruct (id_of_code t) as [[]|]; try discriminate Hi; injection Hi as <-; discriminate E.
  - unfold s7_command in Hs. destruct (sst d); try discriminate Hs; injection Hs as <-; try destruct (_ =? _)%Z; split; try discriminate; reflexivity.
  - split; discriminate.
Qed.

Definition s7_resolved (acc : option bytes * bool) (d : dv) : Prop :=
  (snd acc = true <-> rst d = R7Cdnsgip) /\ (forall a, fst acc = Some a -> str_body (ip (ext d)) = a) /\
  (10 <= s7_rank (sst d) <= 18 \/ rst d = R7Ciprxget2 -> rst d <> R7Cdnsgip -> fst acc <> None).

Lemma s7_resolved_fields : forall acc d d', sst d' = sst d -> rst d' = rst d -> ip (ext d') = ip (ext d) -> s7_resolved acc d -> s7_resolved acc d'.
Proof. intros acc d d' E1 E2 E3. unfold s7_resolved. rewrite E1, E2, E3. auto. Qed.

Lemma s7_not_waiting : forall d : dv, ~ awaiting r7_ok d -> rst d = R7Ok.
Proof. intros d H. unfold awaiting in H. destruct (rst d); try reflexivity; contradiction H; right; reflexivity. Qed.

Lemma s7_diagram_low : forall s s', In (s, s') s7_diagram \/ In (s, s') s7_undocumented -> s <> S7SendDnsQuery -> 10 <= s7_rank s' <= 18 -> 10 <= s7_rank s <= 18.
Proof.
  intros s s' H. assert (G : forallb (fun p => match fst p with S7SendDnsQuery => true | s => negb ((10 <=? s7_rank (snd p)) && (s7_rank (snd p) <=? 18)) ||
     ((10 <=? s7_rank s) && (s7_rank s <=? 18)) end) (s7_diagram ++ s7_undocumented) = true) by (vm_compute; reflexivity).
  rewrite forallb_forall in G. specialize (G (s, s') ltac:(apply in_or_app; exact H)). cbn [fst snd] in G. intros N R.
  destruct s; try contradiction; try lia.
Qed.

Theorem s7_dns_history : forall P d0 tr d, s7_fresh d0 -> s7_hist P d0 tr d -> s7_resolved (dns_log tr) d.
Proof.
  intros P d0 tr d HF Hh. unfold dns_log.
  apply (act_ghost _ _ _ _ _ (s7_contract P) _ s7_resolved dns_act (fun acc => (fst acc, false)) (fun _ => True)) with (d := d0); auto.
  - intros a d1 (K1 & K2 & K3). split; [exact K1|]. split; [exact K2|]. intros [H|H]; [change (10 <= s7_rank S7SerialError <= 18) in H; cbn in H; lia|apply K3; right; exact H].
  - intros a d1 q d2 (K1 & K2 & K3) _ _ (R1 & R2 & _ & _ & R5 & _). unfold s7_resolved. cbn [dns_act fst snd]. rewrite R1, R2, R5. split; [split; discriminate|].
    split; [exact K2|]. intros [H|H]; [destruct (_ && _) in H; cbn in H; lia|discriminate].
  - intros a d1 r d2 b K Hl [_ Hx]. pose proof K as (K1 & K2 & K3).
    destruct b as [q|tk|tk1 tk2|tk line| |cmd q|n q|q|tk]; cbn [dns_act]; try (inversion Hl; fail);
      try (destruct Hx as (X0 & X1 & _ & _ & _ & X2 & _); apply (s7_resolved_fields _ d1); auto; congruence).
    destruct Hx as [HC Hx]. pose proof (s7_line_moved _ _ _ _ _ Hx) as HM. apply s7_line_effect in Hx.
    assert (HR : rst d2 = rst d1 \/ rst d2 = R7Ok) by (unfold s7_ictl in HC; pick HC).
    unfold s7_effect in Hx.
    assert (HK3 : rst d2 <> R7Cdnsgip -> rst d1 <> R7Cdnsgip -> 10 <= s7_rank (sst d2) <= 18 \/ rst d2 = R7Ciprxget2 -> fst a <> None).
    { intros H1 H2 H3. apply K3; [|exact H2]. destruct H3 as [H3|H3].
      - destruct HM as [E|[(_ & _ & E)|(E & _)]]; [left; rewrite <- E; exact H3|rewrite E in H3; cbn in H3; lia|auto].
      - destruct HR as [HR|HR]; [right; congruence|congruence]. }
    destruct (s7_refused line d1) eqn:Er.
    + assert (Hp : dns_okb line = false).
      { unfold s7_refused in Er. destruct (wait d1); [|discriminate]. apply andb_true_iff in Er as [_ Er].
        apply prefixb_spec in Er as [t ->]. reflexivity. }
      rewrite Hp, andb_false_r. destruct Hx as (_ & X1 & X2). unfold s7_resolved. rewrite X1. split; [rewrite X2; exact K1|]. split; [exact K2|].
      intros H3 H1. apply HK3; auto. congruence.
    + destruct (snd a) eqn:Ea; cbn [andb].
      * assert (Er1 : rst d1 = R7Cdnsgip) by (apply K1; reflexivity). rewrite Er1 in Hx. destruct Hx as [_ [(X1 & X2 & x & X3 & X4 & X5 & X6)|(X1 & X2 & X3)]].
        -- apply dns_okb_spec in X1. rewrite X1. unfold s7_resolved. cbn [fst snd]. rewrite X2, X3, X6. split; [split; discriminate|]. split; [|discriminate].
           intros a' E. injection E as <-. cbn [ip set_ip]. apply str_body_free. exact X5.
        -- assert (Hp : dns_okb line = false) by (destruct (dns_okb line) eqn:E; [apply dns_okb_spec in E; contradiction|reflexivity]).
           rewrite Hp. unfold s7_resolved. rewrite X2, X3, Ea. split; [tauto|]. split; [exact K2|]. congruence.
      * assert (Er1 : rst d1 <> R7Cdnsgip) by (intro E; apply K1 in E; discriminate).
        assert (Hip : ip (ext d2) = ip (ext d1)).
        { destruct (rst d1); try (rewrite (proj2 Hx); reflexivity); try (rewrite (proj1 Hx); reflexivity); try congruence.
          destruct Hx as [_ [(_ & s & r' & _ & ->)|(_ & _ & ->)]]; reflexivity. }
        unfold s7_resolved. rewrite Hip, Ea. split; [split; [discriminate|]; intro E; destruct HR; congruence|]. split; [exact K2|]. intros H3 H1. apply HK3; auto.
  - intros e a d1 d2 b _ (K1 & K2 & K3) Hl Hx. destruct (s7_out_effect _ _ _ Hl Hx) as (_ & (Q1 & _ & Q2 & _) & E2).
    assert (Hip : ip (ext d2) = ip (ext d1)) by (destruct Q1 as [->|[-> _]]; reflexivity).
    destruct Hx as (_ & (Hd & _) & _).
    assert (HK : rst d1 = R7Ok -> 10 <= s7_rank (sst d2) <= 18 -> rst d2 <> R7Cdnsgip -> fst a <> None).
    { intros H1 H2 H3. apply K3; [|congruence]. left. destruct Hd as [Hd|Hd]; [rewrite <- Hd; exact H2|].
      apply (s7_diagram_low _ _ Hd); [|exact H2]. intro E. destruct (Q2 E) as [H|[H|H]]; [rewrite H, E in H2; cbn in H2; lia|contradiction|lia]. }
    unfold s7_resolved. rewrite Hip.
    destruct b; cbn [dns_act fst snd]; try (inversion Hl; fail).
    + (* quiet *) split; [rewrite E2; exact K1|]. split; [exact K2|]. rewrite E2. intros H3 H1. destruct H3 as [H3|H3]; [|apply K3; auto].
      apply K3; [|exact H1]. left. destruct Hd as [Hd|Hd]; [rewrite <- Hd; exact H3|]. apply (s7_diagram_low _ _ Hd); [|exact H3].
      intro E. destruct (Q2 E) as [H|[H|H]]; [rewrite H, E in H3; cbn in H3; lia|congruence|lia].
    + assert (Er : rst d1 = R7Ok) by (apply s7_not_waiting; inversion Hl; assumption).
      split; [exact (s7_says_dns _ _ _ E2)|]. split; [exact K2|]. intros H3 H1. destruct H3 as [H3|H3]; [apply HK; auto|].
      destruct E2 as [(_ & _ & (_ & _ & E))|[(c & _ & _ & (_ & _ & E))|[(c & _ & _ & (_ & _ & E))|(E & _)]]]; try (rewrite H3 in E; discriminate E).
      * exfalso. rewrite H3 in E. destruct (sst d1); discriminate E.
      * apply K3; [left; rewrite E; cbn; lia|congruence].
    + assert (Er : rst d1 = R7Ok) by (apply s7_not_waiting; inversion Hl; assumption).
      split; [rewrite E2; exact K1|]. split; [exact K2|]. intros H3 H1. destruct H3 as [H3|H3]; [apply HK; auto|congruence].
    + assert (Er : rst d1 = R7Ok) by (apply s7_not_waiting; inversion Hl; assumption).
      split; [rewrite E2, <- Er; exact K1|]. split; [exact K2|]. intros H3 H1. destruct H3 as [H3|H3]; [apply HK; auto|congruence].
    + assert (Er : rst d1 = R7Ok) by (apply s7_not_waiting; inversion Hl; assumption).
      split; [rewrite E2, <- Er; exact K1|]. split; [exact K2|]. intros H3 H1. destruct H3 as [H3|H3]; [apply HK; auto|congruence].
  - intros e a d1 d2 _ HI K _ Hn Hcr (_ & _ & _ & _ & F & _) E1 E2 _ _. apply (s7_resolved_fields _ d1); auto.
    destruct F as [->|[x Ex]]; [reflexivity|]. rewrite Ex in Hcr. destruct Hcr as (_ & _ & Hc). cbn [drv_x s7_driver] in Hc.
    destruct x; cbn [sim_x] in Hc.
    + injection Hc as _ <-. reflexivity.
    + unfold sim_serial_lock in Hc. destruct (wait _); [injection Hc as _ <-; reflexivity|]. destruct (r7_ok _); injection Hc as _ <-; reflexivity.
    + injection Hc as _ <-. reflexivity.
    + unfold sim_request_id in Hc. destruct (wr _ 0 _) as [b1|]; [|discriminate]. cbn [bind] in Hc. destruct (wr b1 1 _) as [b2|]; [|discriminate]. cbn [bind] in Hc.
      destruct (wr b2 2 _) as [b3|]; [|discriminate]. cbn [bind] in Hc. injection Hc as _ <-. reflexivity.
    + destruct (sim_get_id _); [|discriminate]. cbn [bind] in Hc. injection Hc as _ <-. reflexivity.
  - intros a d1 d2 HI (K1 & K2 & K3) _ E. destruct (s7_reset_exact P d1 d2 HI E) as (y & -> & _). unfold s7_resolved. cbn. split; [split; discriminate|].
    split; [exact K2|]. intros [H|H]; [lia|discriminate].
  - apply Forall_forall. auto.
  - destruct HF as (_ & _ & F1 & F2 & _). unfold s7_resolved. cbn [fst snd]. rewrite F1, F2. cbn. split; [split; discriminate|]. split; [discriminate|]. intros [H|H]; [lia|discriminate].
Qed.

(** The open command names the address that was resolved last. *)
Theorem s7_open_address : forall P d0 tr d e d' cmd q, s7_built d0 -> s7_hist P d0 (tr ++ [e]) d' -> s7_hist P d0 tr d -> s7_step P d e d' ->
  In (aCommand cmd q) (e_acts e) -> prefixb (bs "AT+CIPOPEN=") cmd = true -> typ d <> UDP ->
  exists a, fst (dns_log (tr ++ [e])) = Some a /\ cmd = bs "AT+CIPOPEN=0," ++ quoted (bs "TCP") ++ bs "," ++ quoted a ++ bs "," ++ dec (port d) ++ [CR; LF].
Proof.
  intros P d0 tr d e d' cmd q HB Hh' Hh Hs Hin Hp Ht.
  assert (Eo : exists oo, e_op e = OpRun oo).
  { destruct (s7_cases P d e d' Hs) as (d1 & _ & _ & [(oo & E & _)|(_ & E & _)]); [eauto|]. rewrite E in Hin. destruct Hin. }
  destruct Eo as [oo Eo]. pose proof (s7_dns_history P d0 _ d' (s7_built_fresh _ HB) Hh') as (_ & K2 & K3).
  destruct (s7_run_cases P d e d' oo Hs Eo) as (d1 & Hd & [(E & _)|[(q' & E & _)|(_ & _ & _ & a & d2 & r & Hi & Hx & [(E & _)|(b & E & Ho & Hox)])]]); rewrite E in Hin.
  - destruct Hin.
  - destruct Hin as [H|[]]. discriminate H.
  - destruct Hin as [H|[]]. subst a. inversion Hi.
  - destruct Hin as [H|[H|[]]]; [subst a; inversion Hi|]. subst b. destruct (s7_out_effect _ _ _ Ho Hox) as (_ & (Q1 & _) & Hsay).
    assert (Hkp : keep (during (e_sch e) d) d2) by (inversion Hi; assumption).
    assert (E1 : typ d2 = typ d) by apply Hkp. assert (E2 : port d2 = port d) by apply Hkp.
    assert (Hip : str_body (ip (ext d2)) = str_body (ip (ext d'))) by (rewrite Hd; cbn [ext set_io]; destruct Q1 as [->|[-> _]]; reflexivity).
    destruct Hsay as [(_ & -> & _)|[(c & Hc & -> & _)|[(c & Hc & -> & (N1 & _ & N3))|(_ & _ & n & -> & _)]]]; try discriminate Hp.
    + exfalso. unfold id_request in Hc. destruct (nth_error _ 1) as [t|]; [|discriminate]. destruct (id_of_code t) as [[]|]; try discriminate Hc; injection Hc as <-; discriminate Hp.
    + unfold s7_command in Hc. rewrite E1, E2 in Hc. destruct (sst d2); try discriminate Hc; apply some_eq in Hc; subst c; try discriminate Hp.
      destruct (Z.eqb_spec (typ d) UDP); [contradiction|]. cbn [s7_after fst snd] in N1, N3.
      assert (N1' : sst d' = S7FinalizeConnect) by (rewrite Hd; exact N1). assert (N3' : rst d' = R7Cipopen) by (rewrite Hd; exact N3).
      rewrite N1', N3' in K3. destruct (fst (dns_log (tr ++ [e]))) as [a'|]; [|contradiction K3; [left; cbn; lia|discriminate|reflexivity]].
      exists a'. split; [reflexivity|]. rewrite <- (K2 a' eq_refl), <- Hip. unfold quoted. repeat rewrite <- app_assoc. reflexivity.
Qed.

(** ** Identification *)

Definition s7_ident (acc : idlog) (d : dv) : Prop :=
  il_nul acc = true \/
  (nth_error (idbuf (ext d)) 0 = Some NUL /\
   match il_req acc with
   | Some t => nth_error (idbuf (ext d)) 2 = Some (id_code t)
   | None => nth_error (idbuf (ext d)) 1 = Some (id_code idNone) /\ rst d <> R7RequestID
   end) \/
  (nth_error (idbuf (ext d)) 0 <> Some NUL /\ rst d <> R7RequestID /\ id_answer acc (str_body (idbuf (ext d)))).

Lemma s7_ident_fields : forall acc d d', idbuf (ext d') = idbuf (ext d) -> (rst d' = R7RequestID -> rst d = R7RequestID) -> s7_ident acc d -> s7_ident acc d'.
Proof.
  intros acc d d' E1 E2 [H|[(H1 & H2)|(H1 & H2 & H3)]]; unfold s7_ident; rewrite E1.
  - left. exact H.
  - right. left. split; [exact H1|]. destruct (il_req acc); [exact H2|]. destruct H2 as [H2 H3]. split; [exact H2|]. intro K. exact (H3 (E2 K)).
  - right. right. split; [exact H1|]. split; [intro K; exact (H2 (E2 K))|exact H3].
Qed.

Lemma s7_ident_more : forall acc d L, s7_ident acc d -> s7_ident (mkIdlog (il_req acc) (il_lines acc ++ [L]) (il_nul acc || negb (nulfree L))) d.
Proof.
  intros acc d L [H|[H|(H1 & H2 & (t & L' & s & A1 & A2 & A3))]].
  - left. cbn. rewrite H. reflexivity.
  - right. left. exact H.
  - right. right. split; [exact H1|]. split; [exact H2|]. exists t, L', s. split; [exact A1|]. split; [apply in_or_app; left; exact A2|exact A3].
Qed.

Theorem s7_id_history : forall P d0 tr d, s7_built d0 -> s7_hist P d0 tr d -> s7_ident (id_log tr) d.
Proof.
  intros P d0 tr d HB Hh. unfold id_log.
  apply (call_ghost _ _ _ _ _ (s7_contract P) _ s7_ident id_act id_call (fun _ => True)) with (d := d0); auto.
  - intros a d1 q d2 K _ _ (_ & R2 & _ & _ & R5 & _). cbn [id_act]. apply (s7_ident_fields _ d1); auto; [congruence|]. rewrite R2. discriminate.
  - intros a d1 r d2 b K Hl [HI Hx].
    destruct b as [q|tk|tk1 tk2|tk L| |cmd q|n q|q|tk]; cbn [id_act]; try (inversion Hl; fail);
      try (destruct Hx as (X0 & X1 & _ & _ & _ & X2 & _); apply (s7_ident_fields _ d1); auto; congruence).
    assert (Hwl : whole_line L) by (inversion Hl; assumption).
    apply (s7_ident_more _ _ L) in K. set (a' := mkIdlog _ _ _) in *.
    destruct (nulfree L) eqn:En; [|left; unfold a'; cbn; apply orb_true_r].
    destruct Hx as [HC Hx]. apply s7_line_effect in Hx.
    assert (HR : rst d2 = rst d1 \/ rst d2 = R7Ok) by (unfold s7_ictl in HC; pick HC).
    assert (Keep : idbuf (ext d2) = idbuf (ext d1) -> s7_ident a' d2) by (intro E; apply (s7_ident_fields _ d1); auto; destruct HR; congruence).
    unfold s7_effect in Hx. destruct (s7_refused L d1); [apply Keep; rewrite (proj1 (proj2 Hx)); reflexivity|].
    destruct (rst d1) eqn:Er1; try (apply Keep; rewrite (proj2 Hx); reflexivity); try (apply Keep; rewrite (proj1 Hx); reflexivity).
    + destruct Hx as [_ [(X1 & s & r' & [Y1 Y2] & X2)|(_ & _ & X2)]]; [|apply Keep; rewrite X2; reflexivity].
      destruct K as [K|[(K1 & K2)|(_ & K2 & _)]]; [left; exact K| |congruence].
      destruct (il_req a') as [t|] eqn:Eq; [|exfalso; apply K2; exact Er1].
      destruct (id_reply_text L s Hwl En Y1) as [Z1 Z2].
      destruct (id_stored_first s r' (idbuf (ext d1)) Z1 Z2) as [(_ & Z)|(Z3 & Z4)].
      * right. left. rewrite X2. cbn [idbuf set_idbuf]. rewrite Z, Eq. split; [reflexivity|]. destruct (idbuf (ext d1)); [discriminate K1|exact K2].
      * right. right. rewrite X2. cbn [idbuf set_idbuf]. split; [exact Z3|]. split; [rewrite X1; discriminate|].
        exists t, L, s. split; [exact Eq|]. split; [unfold a'; cbn; apply in_or_app; right; left; reflexivity|]. split; [exact Y1|]. split; [|exact Z4].
        intros ->. apply Y2. exact K2.
    + destruct Hx as [_ [(_ & _ & x & _ & _ & _ & X2)|(_ & _ & X2)]]; apply Keep; rewrite X2; reflexivity.
  - intros e a d1 d2 b _ K Hl Hx. destruct (s7_out_effect _ _ _ Hl Hx) as (_ & (Q1 & Q2 & _) & E2).
    assert (G : s7_ident a d2); [|destruct b; try exact G; inversion Hl].
    destruct K as [K|[(K1 & K2)|(K1 & K2 & K3)]].
    + left. exact K.
    + right. left. assert (Hn0 : nth_error (idbuf (ext d2)) 0 = Some NUL).
      { destruct Q1 as [->|[-> _]]; [exact K1|]. cbn [idbuf set_idbuf]. rewrite nth_list_set_ne by discriminate. exact K1. }
      split; [exact Hn0|]. destruct (il_req a) as [t|].
      * destruct Q1 as [->|[-> _]]; [exact K2|]. cbn [idbuf set_idbuf]. rewrite nth_list_set_ne by discriminate. exact K2.
      * destruct K2 as [K2 K3]. split.
        -- destruct Q1 as [->|[-> _]]; [exact K2|]. cbn [idbuf set_idbuf]. rewrite nth_list_set_eq; [reflexivity|].
           apply nth_error_Some. rewrite K2. discriminate.
        -- intro E. destruct b; try (inversion Hl; fail); try congruence.
           destruct E2 as [(_ & _ & (_ & _ & E3))|[(c & Hc & _)|[(c & _ & _ & (_ & _ & E3))|(_ & (_ & _ & E3) & _)]]]; try (rewrite E in E3; discriminate E3).
           ++ unfold id_request in Hc. rewrite K2 in Hc. discriminate Hc.
           ++ rewrite E in E3. destruct (sst d1); discriminate E3.
    + destruct Q1 as [Q1|[_ Q1]]; [|congruence]. right. right. rewrite Q1. split; [exact K1|]. split; [|exact K3]. intro E. destruct (Q2 E); congruence.
  - intros e a d1 d2 _ HI K Hn Hcr (_ & _ & _ & _ & F & _) E1 E2 _ _. unfold id_call.
    assert (Keep : ext d2 = ext d1 -> s7_ident a d2) by (intro E; apply (s7_ident_fields _ d1); auto; congruence).
    destruct (e_op e) as [| | | | | | | | | | | | | | | | | |x] eqn:Eo; try discriminate Hn; try (destruct F as [F|[x F]]; [exact (Keep F)|discriminate F]).
    destruct Hcr as (_ & _ & Hc). cbn [drv_x s7_driver] in Hc. destruct x; cbn [sim_x] in Hc.
    + injection Hc as _ <-. apply (s7_ident_fields _ d1); auto.
    + unfold sim_serial_lock in Hc. destruct (wait _); [injection Hc as _ <-; exact K|]. destruct (r7_ok _); injection Hc as _ <-; exact K.
    + injection Hc as _ <-. exact K.
    + assert (Hl : 2 < length (idbuf (ext d1))) by (destruct HI as ((_ & _ & Hid & _) & _); rewrite Hid; lia).
      unfold sim_request_id in Hc. rewrite wr_ok in Hc by lia. cbn [bind] in Hc. rewrite wr_ok in Hc by (rewrite list_set_length; lia). cbn [bind] in Hc.
      rewrite wr_ok in Hc by (rewrite !list_set_length; lia). cbn [bind] in Hc. injection Hc as _ <-. right. left. cbn [ext idbuf set_x_idbuf set_ext set_idbuf il_req].
      rewrite !nth_list_set_ne by discriminate. split; [apply nth_list_set_eq; lia|]. apply nth_list_set_eq. rewrite !list_set_length. lia.
    + destruct (sim_get_id _); [|discriminate]. cbn [bind] in Hc. injection Hc as _ <-. exact K.
  - intros e a d1 d2 HI _ Eo _ E. unfold id_call. rewrite Eo. right. left. cbn [il_req].
    assert (Hl : 2 < length (idbuf (ext d1))) by (destruct HI as ((_ & _ & Hid & _) & _); rewrite Hid; lia).
    destruct (s7_reset_exact P d1 d2 HI E) as (y & -> & _). cbn [s7_reseted ext idbuf set_idbuf rst].
    rewrite (nth_list_set_ne _ 1 0) by discriminate. rewrite nth_list_set_eq by lia. rewrite nth_list_set_eq by (rewrite list_set_length; lia).
    split; [reflexivity|]. split; [reflexivity|discriminate].
  - apply Forall_forall. auto.
  - right. left. split; [exact (s7_built_id0 d0 HB)|]. split; [exact (s7_built_id d0 HB)|].
    pose proof (s7_built_fresh _ HB) as (_ & _ & _ & F2 & _). rewrite F2. discriminate.
Qed.

(** What getIDString() returns. *)
Theorem s7_id_answer : forall P d0 tr d e d' s, s7_built d0 -> s7_hist P d0 tr d -> s7_step P d e d' ->
  e_op e = OpX GetID -> e_out e = DStr (Some s) -> il_nul (id_log tr) = false -> id_answer (id_log tr) s.
Proof.
  intros P d0 tr d e d' s HB Hh Hs Eo Eout Hn. pose proof (s7_id_history P d0 tr d HB Hh) as K.
  destruct (s7_cases P d e d' Hs) as (d1 & _ & HA & [(oo & E & _)|(_ & _ & _ & Hc)]); [congruence|].
  rewrite Eo, Eout in Hc. destruct Hc as (_ & _ & Hc). cbn [drv_x s7_driver sim_x] in Hc.
  destruct (sim_get_id (during (e_sch e) d)) as [r|] eqn:Eg; [|discriminate]. cbn [bind] in Hc. injection Hc as Er _. subst r.
  unfold sim_get_id in Eg. destruct (wait _); [discriminate|]. change (ext (during (e_sch e) d)) with (ext d) in Eg.
  unfold rd in Eg. destruct (nth_error (idbuf (ext d)) 0) as [c0|] eqn:E0; [|discriminate]. cbn [bind] in Eg. unfold aeqb in Eg.
  destruct (Ascii.eqb_spec c0 NUL) as [->|Hne]; [discriminate|].
  destruct K as [K|[(K1 & _)|(_ & _ & K)]]; [congruence|congruence|].
  destruct (cstring (idbuf (ext d))) as [s'|] eqn:Es; [|discriminate]. cbn [bind] in Eg. injection Eg as ->.
  assert (Hb : str_body (idbuf (ext d)) = s). { rewrite cstring_ok in Es; [congruence|]. exact (proj2 (proj2 (proj2 (proj2 (proj2 (proj1 HA)))))). }
  rewrite <- Hb. exact K.
Qed.
