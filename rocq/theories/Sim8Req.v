(** Signal strength, resolved address and identification in histories of the
    SIM800 driver. *)
From Coq Require Import String Ascii ZArith List Bool Arith Lia ZifyBool ZifyNat.
From Verif Require Import Base QueueSpec LineSpec SerialSpec Ring RingProofs LineRing LineRingProofs Serial SerialProofs
  SerStep TaskMacros CStr CStrProofs Dev DevProofs SimDev SimProofs SimSpec SimParse SimLog Sym DrvStep DrvCommon DrvRun DrvHist
  Sim800 Sim8Spec Sim8Proofs Sim8Ctl Sim8CtlIn Sim8Run Sim8Hist Sim8Thms Sim8More Sim8Line.
Import ListNotations.
Local Open Scope nat_scope.
Ltac Zify.zify_post_hook ::= Z.div_mod_to_equations.
Local Notation dv := (dev s8send s8reply simx).
Local Notation ent := (@entry simop).
Local Notation olab8 := (olab r8_ok s8_says s8_tail s8_insend true).
(** Proves a goal that is one of the conjuncts of H (faster than tauto). *)
Ltac pick H :=
  lazymatch type of H with
  | _ /\ _ => let A := fresh in let B := fresh in destruct H as [A B]; first [pick A|pick B]
  | _ => exact H
  end.

Definition s8_out_req (d d' : dv) : Prop :=
  (ext d' = ext d \/ (ext d' = set_idbuf (list_set (idbuf (ext d)) 1 (id_code idNone)) (ext d) /\ nth_error (idbuf (ext d)) 0 = Some NUL)) /\
  (rst d' = R8RequestID -> rst d = R8RequestID \/ nth_error (idbuf (ext d)) 0 = Some NUL) /\
  (sst d = S8SendDnsQuery -> sst d' = sst d \/ rst d' = R8Cdnsgip \/ s8_rank (sst d') < 10) /\
  (wait d' = Some (bs ">") -> wait d = Some (bs ">") \/ sst d' = S8SendData /\ rst d' = R8Ok).

Lemma s8_output_req : forall (U : Prop) d, s8_inv d ->
  (sst d = S8SendCstt -> not_str (apn (ext d)) -> U) ->
  (sst d = S8SendDnsQuery -> not_str (host d) -> U) ->
  wp U (s8_output d) (s8_out_req d).
Proof.
  intros U d H HU1 HU2. unfold s8_output. destruct (wait d) eqn:Ew.
  { cbn [wp]. unfold s8_out_req. auto. }
  destruct (rst d) eqn:Er; cbn [r8_ok negb wp].
  all: try (unfold s8_out_req; rewrite ?Er; auto; fail).
  open_inv d H. subst. syms.
  all: try (match goal with |- wp _ (s8_machine _) _ =>
       unfold s8_machine, at_handle_connect, at_handle_disconnect; gs; destruct ss0; gs; syms end).
  all: try (apply HU1; [reflexivity | unfold not_str; congruence]).
  all: try (apply HU2; [reflexivity | assumption]).
  all: try nulip.
  all: clear Hwf Hr Ht Hrw Hrs Hww Hws Hwf2 Hl Hw Hpo Hip Hid Hmx Hipn Hidn HU1 HU2; cases; unfold s8_out_req; gs; cbn [s8_rank].
  all: split; [first [left; reflexivity | right; split; [reflexivity|assumption]] | split; [first [discriminate | (intros _; right; assumption)] | 
    split; [first [discriminate | (intros _; first [left; reflexivity | right; left; reflexivity | right; right; lia])] |
    first [discriminate | (intros _; right; split; reflexivity)]]]].
Qed.

Lemma s8_out_effect : forall d d' b, olab8 d d' b -> s8_out_ext d b d' -> rssi d' = rssi d /\ s8_out_req d d' /\
  match b with
  | aCommand cmd _ => s8_says d cmd d'
  | aPayload _ | aReceive _ => rst d' = R8Ok
  | _ => rst d' = rst d
  end.
Proof.
  intros d d' b Hl (HI & Hc & Ho). split; [apply Hc|]. split.
  - pose proof (s8_output_req True d HI (fun _ _ => I) (fun _ _ => I)) as H. rewrite Ho in H. exact H.
  - pose proof (s8_output_after True d HI (fun _ _ => I) (fun _ _ => I)) as H. rewrite Ho in H. destruct H as [A B].
    destruct Hl; auto.
    + apply A; [destruct (sst d); try discriminate; reflexivity|intro E; rewrite E in *; discriminate].
    + apply B; assumption.
Qed.

(** ** Signal strength *)

Lemma s8_says_csq : forall d cmd d', s8_says d cmd d' -> same cmd (bs "AT+CSQ" ++ [CR; LF]) = true <-> rst d' = R8Csq.
Proof.
  intros d cmd d' H. rewrite same_true. destruct H as [(_ & -> & (_ & _ & ->))|[(c & Hi & -> & (_ & _ & ->))|[(c & Hs & -> & (_ & _ & ->))|(_ & (_ & _ & ->) & n & -> & _)]]].
  - split; reflexivity.
  - split; [|discriminate]. intro E. apply app_inv_tail in E. subst c. exfalso. unfold id_request in Hi. destruct (nth_error _ 1) as [t|]; [|discriminate].
    destruct (id_of_code t) as [[]|]; discriminate Hi.
  - split; [|destruct (sst d); discriminate]. intro E. apply app_inv_tail in E. subst c. exfalso.
    unfold s8_command in Hs. destruct (sst d); try destruct (_ =? _)%Z; discriminate Hs.
  - split; discriminate.
Qed.

(** A line that is taken as an identification while the signal strength is
    awaited: sim800.cpp:151-161 falls from the one case into the other. *)
Definition s8_stray (L : bytes) : bool := negb (s8_refused L) && match id_reply L with Some _ => true | None => false end.

(** The value getRSSI() is to return, whether an AT+CSQ may be unanswered, and
    whether such a line disturbed it. *)
Record rslog8 := mkRslog8 { rl_value : Z; rl_asked : bool; rl_stray : bool }.
Definition rssi8_act (P : plat) (acc : rslog8) (a : act) : rslog8 :=
  match a with
  | aCommand cmd _ => if same cmd (bs "AT+CSQ" ++ [CR; LF]) then mkRslog8 INT16_MAX true false else mkRslog8 (rl_value acc) false (rl_stray acc)
  | aLine _ L =>
      if rl_asked acc then
        if prefixb (bs "+CSQ: ") L then mkRslog8 (csq_dbm (number P (skipn 6 L))) false (rl_stray acc)
        else mkRslog8 (rl_value acc) true (rl_stray acc || s8_stray L)
      else acc
  | aReset _ => mkRslog8 (rl_value acc) false (rl_stray acc)
  | _ => acc
  end.
Definition rssi8_call (acc : rslog8) (e : ent) : rslog8 :=
  match e_op e with OpRequestRSSI => mkRslog8 INT16_MAX (rl_asked acc) (rl_stray acc) | OpResetStates => mkRslog8 99%Z false false | _ => acc end.
Definition rssi8_log (P : plat) (tr : list ent) : rslog8 := fold_left (reading (rssi8_act P) rssi8_call) tr (mkRslog8 99%Z false false).

Definition s8_signal (acc : rslog8) (d : dv) : Prop :=
  (rst d = R8Csq -> rl_asked acc = true) /\ (rl_stray acc = false -> rssi d = rl_value acc /\ (rl_asked acc = true -> rst d = R8Csq)).

Theorem s8_rssi_history : forall P d0 tr d, s8_fresh d0 -> s8_hist P d0 tr d -> s8_signal (rssi8_log P tr) d.
Proof.
  intros P d0 tr d HF Hh. unfold rssi8_log.
  apply (call_ghost _ _ _ _ _ (s8_contract P) _ s8_signal (rssi8_act P) rssi8_call (fun _ => True)) with (d := d0); auto.
  - intros a d1 q d2 [K1 K2] _ _ (_ & R2 & _ & _ & _ & R6). unfold s8_signal. cbn [rssi8_act rl_value rl_asked rl_stray]. rewrite R2, R6. split; [discriminate|].
    intro E. split; [apply K2; exact E|discriminate].
  - intros a d1 r d2 b K Hl [_ Hx]. pose proof K as [K1 K2]. destruct b as [q|tk|tk1 tk2|tk line| |cmd q|n q|q|tk]; cbn [rssi8_act]; try (inversion Hl; fail);
      try (destruct Hx as (_ & X1 & _ & _ & X2 & _); unfold s8_signal; rewrite X1, X2; exact K).
    destruct Hx as [HC Hx]. apply s8_line_effect in Hx. assert (HR : rst d2 = rst d1 \/ rst d2 = R8Ok) by (unfold s8_ictl in HC; pick HC).
    assert (HV : rssi d2 = rssi d1 \/ rst d1 = R8Csq /\ prefixb (bs "+CSQ: ") line = true) by (unfold s8_ictl in HC; pick HC). clear HC.
    assert (HV0 : rst d1 <> R8Csq -> rssi d2 = rssi d1) by (clear - HV; tauto). clear HV. rename HV0 into HV.
    destruct (rl_asked a) eqn:Ea.
    + destruct (prefixb (bs "+CSQ: ") line) eqn:Ep.
      * assert (Ef : s8_refused line = false) by (apply prefixb_spec in Ep as [t ->]; reflexivity).
        unfold s8_signal. cbn [rl_value rl_asked rl_stray]. unfold s8_effect in Hx. rewrite Ef in Hx.
        destruct (rst d1) eqn:Er; try (split; [destruct HR as [HR|HR]; rewrite HR; discriminate|intro E; destruct (K2 E) as [_ K3]; specialize (K3 eq_refl); discriminate K3]).
        rewrite Ep in Hx. destruct Hx as (X1 & b & _ & X2). rewrite X1, X2, orb_true_r. split; [discriminate|]. intro E. split; [reflexivity|discriminate].
      * unfold s8_signal. cbn [rl_value rl_asked rl_stray]. split; [reflexivity|]. intro E. apply orb_false_iff in E as [E1 E2].
        destruct (K2 E1) as [J1 J2]. specialize (J2 eq_refl). unfold s8_effect in Hx. unfold s8_stray in E2. destruct (s8_refused line).
        -- destruct Hx as (X1 & _ & X3). rewrite X1, X3. auto.
        -- rewrite J2, Ep in Hx. destruct Hx as (X1 & b & X2 & X3). destruct b.
           ++ destruct X2 as (s & r' & [Y1 _] & _). rewrite Y1 in E2. discriminate E2.
           ++ rewrite X1, X3. auto.
    + assert (Er : rst d1 <> R8Csq) by (intro E; specialize (K1 E); congruence).
      unfold s8_signal. rewrite (HV Er), Ea. split; [intro E; destruct HR; congruence|]. intro E. split; [apply K2; exact E|discriminate].
  - intros e a d1 d2 b _ K Hl Hx. destruct (s8_out_effect _ _ _ Hl Hx) as (E1 & _ & E2). pose proof K as [K1 K2].
    destruct b as [q|tk|tk1 tk2|tk line| |cmd q|n q|q|tk]; cbn [rssi8_act]; try (inversion Hl; fail); try (unfold s8_signal; rewrite E1, E2; exact K).
    + pose proof (s8_says_csq _ _ _ E2) as Hc. unfold s8_signal. destruct (same cmd _) eqn:Es; cbn [rl_value rl_asked rl_stray].
      * split; [reflexivity|]. intros _. split; [|intros _; apply Hc; reflexivity]. rewrite E1.
        destruct E2 as [(E2 & _)|E2]; [exact E2|]. exfalso. apply same_true in Es.
        destruct E2 as [(c & _ & _ & (_ & _ & E3))|[(c & _ & _ & (_ & _ & E3))|(_ & (_ & _ & E3) & _)]];
          rewrite (proj1 Hc eq_refl) in E3; try discriminate E3. destruct (sst d1); discriminate E3.
      * split; [intro E; apply Hc in E; discriminate E|]. intro E. rewrite E1. split; [apply K2; exact E|discriminate].
    + unfold s8_signal. rewrite E1, E2. split; [discriminate|]. intro E. split; [apply K2; exact E|]. intro F. exfalso. destruct (K2 E) as [_ K3].
      specialize (K3 F). inversion Hl as [| | |? Ha|]; subst. apply Ha. right. unfold s8_shape, sh_ok. rewrite K3. reflexivity.
    + unfold s8_signal. rewrite E1, E2. split; [discriminate|]. intro E. split; [apply K2; exact E|]. intro F. exfalso. destruct (K2 E) as [_ K3].
      specialize (K3 F). inversion Hl as [| | | |? Ha]; subst. apply Ha. right. unfold s8_shape, sh_ok. rewrite K3. reflexivity.
  - intros e a d1 d2 _ _ K Hn Hcr (_ & _ & _ & _ & _ & F & _) _ E2 _ _. pose proof K as [K1 K2]. unfold s8_signal, rssi8_call. rewrite E2.
    destruct F as [F|[F1 F2]]; [|rewrite F1; cbn [rl_value rl_asked rl_stray]; rewrite F2; split; [exact K1|]; intro E; split; [reflexivity|apply K2; exact E]].
    rewrite F. destruct (e_op e) eqn:Eo; try exact K; try discriminate Hn.
    destruct Hcr as [_ Hcr]. injection Hcr as _ <-. cbn [rl_value rl_asked rl_stray]. split; [exact K1|]. intro E. split; [exact (eq_sym F)|apply K2; exact E].
  - intros e a d1 d2 HI _ Eo _ E. unfold rssi8_call. rewrite Eo. destruct (s8_reset_exact P d1 d2 HI E) as (y & -> & _). unfold s8_signal. cbn. split; [discriminate|]. intros _. split; [reflexivity|discriminate].
  - apply Forall_forall. auto.
  - destruct HF as (_ & _ & _ & F2 & _ & _ & _ & _ & _ & _ & _ & _ & _ & _ & _ & F3 & _). unfold s8_signal. rewrite F2, F3. cbn. split; [discriminate|]. intros _. split; [reflexivity|discriminate].
Qed.

(** ** Resolved address *)

Lemma s8_says_dns : forall d cmd d', s8_says d cmd d' -> prefixb (bs "AT+CDNSGIP=") cmd = true <-> rst d' = R8Cdnsgip.
Proof.
  intros d cmd d' H. destruct H as [(_ & -> & (_ & _ & ->))|[(c & Hi & -> & (_ & _ & ->))|[(c & Hs & -> & (_ & _ & ->))|(_ & (_ & _ & ->) & n & -> & _)]]].
  - split; discriminate.
  - split; [|discriminate]. intro E. exfalso. unfold id_request in Hi. destruct (nth_error _ 1) as [t|]; [|discriminate].
    destruct (id_of_code t) as [[]|]; try discriminate Hi; injection Hi as <-; discriminate E.
  - unfold s8_command in Hs. destruct (sst d); try discriminate Hs; injection Hs as <-; try destruct (_ =? _)%Z; split; try discriminate; reflexivity.
  - split; discriminate.
Qed.

Definition s8_resolved (acc : option bytes * bool) (d : dv) : Prop :=
  (snd acc = true <-> rst d = R8Cdnsgip) /\ (forall a, fst acc = Some a -> str_body (ip (ext d)) = a) /\
  (10 <= s8_rank (sst d) <= 18 \/ rst d = R8Ciprxget2 -> rst d <> R8Cdnsgip -> fst acc <> None).

Lemma s8_resolved_fields : forall acc d d', sst d' = sst d -> rst d' = rst d -> ip (ext d') = ip (ext d) -> s8_resolved acc d -> s8_resolved acc d'.
Proof. intros acc d d' E1 E2 E3. unfold s8_resolved. rewrite E1, E2, E3. auto. Qed.

Lemma s8_not_waiting : forall d : dv, ~ awaiting r8_ok d -> rst d = R8Ok.
Proof. intros d H. unfold awaiting in H. destruct (rst d); try reflexivity; contradiction H; right; reflexivity. Qed.

Lemma s8_diagram_low : forall s s', In (s, s') s8_diagram \/ In (s, s') s8_undocumented -> s <> S8SendDnsQuery -> 10 <= s8_rank s' <= 18 -> 10 <= s8_rank s <= 18.
Proof.
  intros s s' H. assert (G : forallb (fun p => match fst p with S8SendDnsQuery => true | s => negb ((10 <=? s8_rank (snd p)) && (s8_rank (snd p) <=? 18)) ||
     ((10 <=? s8_rank s) && (s8_rank s <=? 18)) end) (s8_diagram ++ s8_undocumented) = true) by (vm_compute; reflexivity).
  rewrite forallb_forall in G. specialize (G (s, s') ltac:(apply in_or_app; exact H)). cbn [fst snd] in G. intros N R.
  destruct s; try contradiction; try lia.
Qed.

Theorem s8_dns_history : forall P d0 tr d, s8_fresh d0 -> s8_hist P d0 tr d -> s8_resolved (dns_log tr) d.
Proof.
  intros P d0 tr d HF Hh. unfold dns_log.
  apply (act_ghost _ _ _ _ _ (s8_contract P) _ s8_resolved dns_act (fun acc => (fst acc, false)) (fun _ => True)) with (d := d0); auto.
  - intros a d1 (K1 & K2 & K3). split; [exact K1|]. split; [exact K2|]. intros [H|H]; [change (10 <= s8_rank S8SerialError <= 18) in H; cbn in H; lia|apply K3; right; exact H].
  - intros a d1 q d2 (K1 & K2 & K3) _ _ (R1 & R2 & _ & _ & R5 & _). unfold s8_resolved. cbn [dns_act fst snd]. rewrite R1, R2, R5. split; [split; discriminate|].
    split; [exact K2|]. intros [H|H]; [unfold s8_reset_state in H; destruct (_ || _) in H; cbn in H; lia|discriminate].
  - intros a d1 r d2 b K Hl [_ Hx]. pose proof K as (K1 & K2 & K3).
    destruct b as [q|tk|tk1 tk2|tk line| |cmd q|n q|q|tk]; cbn [dns_act]; try (inversion Hl; fail);
      try (destruct Hx as (X0 & X1 & _ & _ & _ & X2 & _); apply (s8_resolved_fields _ d1); auto; congruence).
    destruct Hx as [HC Hx]. pose proof (s8_line_moved _ _ _ _ _ Hx) as HM. apply s8_line_effect in Hx.
    assert (HR : rst d2 = rst d1 \/ rst d2 = R8Ok) by (unfold s8_ictl in HC; pick HC).
    unfold s8_effect in Hx.
    assert (HK3 : rst d2 <> R8Cdnsgip -> rst d1 <> R8Cdnsgip -> 10 <= s8_rank (sst d2) <= 18 \/ rst d2 = R8Ciprxget2 -> fst a <> None).
    { intros H1 H2 H3. apply K3; [|exact H2]. destruct H3 as [H3|H3].
      - destruct HM as [E|[(_ & _ & E)|(E & _)]]; [left; rewrite <- E; exact H3|rewrite E in H3; cbn in H3; lia|auto].
      - destruct HR as [HR|HR]; [right; congruence|congruence]. }
    destruct (s8_refused line) eqn:Er.
    + assert (Hp : dns_okb line = false).
      { unfold s8_refused in Er. apply orb_true_iff in Er as [Er|Er]; [apply orb_true_iff in Er as [Er|Er]|]; apply prefixb_spec in Er as [t ->]; reflexivity. }
      rewrite Hp, andb_false_r. destruct Hx as (_ & X1 & X2). unfold s8_resolved. rewrite X1. split; [rewrite X2; exact K1|]. split; [exact K2|].
      intros H3 H1. apply HK3; auto. congruence.
    + destruct (snd a) eqn:Ea; cbn [andb].
      * assert (Er1 : rst d1 = R8Cdnsgip) by (apply K1; reflexivity). rewrite Er1 in Hx. destruct Hx as [_ [(X1 & X2 & x & X3 & X4 & X5 & X6)|(X1 & X2 & X3)]].
        -- apply dns_okb_spec in X1. rewrite X1. unfold s8_resolved. cbn [fst snd]. rewrite X2, X3, X6. split; [split; discriminate|]. split; [|discriminate].
           intros a' E. injection E as <-. cbn [ip set_ip]. apply str_body_free. exact X5.
        -- assert (Hp : dns_okb line = false) by (destruct (dns_okb line) eqn:E; [apply dns_okb_spec in E; contradiction|reflexivity]).
           rewrite Hp. unfold s8_resolved. rewrite X2, X3, Ea. split; [tauto|]. split; [exact K2|]. congruence.
      * assert (Er1 : rst d1 <> R8Cdnsgip) by (intro E; apply K1 in E; discriminate).
        assert (Hip : ip (ext d2) = ip (ext d1)).
        { unfold s8_ident in Hx. destruct (rst d1); try (rewrite (proj2 Hx); reflexivity); try (rewrite (proj1 (proj2 Hx)); reflexivity); try congruence.
          - destruct Hx as (_ & [] & Hx & _); [destruct Hx as (s & r' & _ & ->)|destruct Hx as [_ ->]]; reflexivity.
          - destruct Hx as (_ & [] & Hx & _); [destruct Hx as (s & r' & _ & ->)|destruct Hx as [_ ->]]; reflexivity. }
        unfold s8_resolved. rewrite Hip, Ea. split; [split; [discriminate|]; intro E; destruct HR; congruence|]. split; [exact K2|]. intros H3 H1. apply HK3; auto.
  - intros e a d1 d2 b _ (K1 & K2 & K3) Hl Hx. destruct (s8_out_effect _ _ _ Hl Hx) as (_ & (Q1 & _ & Q2 & _) & E2).
    assert (Hip : ip (ext d2) = ip (ext d1)) by (destruct Q1 as [->|[-> _]]; reflexivity).
    destruct Hx as (_ & (Hd & _) & _).
    assert (HK : rst d1 = R8Ok -> 10 <= s8_rank (sst d2) <= 18 -> rst d2 <> R8Cdnsgip -> fst a <> None).
    { intros H1 H2 H3. apply K3; [|congruence]. left. destruct Hd as [Hd|Hd]; [rewrite <- Hd; exact H2|].
      apply (s8_diagram_low _ _ Hd); [|exact H2]. intro E. destruct (Q2 E) as [H|[H|H]]; [rewrite H, E in H2; cbn in H2; lia|contradiction|lia]. }
    unfold s8_resolved. rewrite Hip.
    destruct b; cbn [dns_act fst snd]; try (inversion Hl; fail).
    + (* quiet *) split; [rewrite E2; exact K1|]. split; [exact K2|]. rewrite E2. intros H3 H1. destruct H3 as [H3|H3]; [|apply K3; auto].
      apply K3; [|exact H1]. left. destruct Hd as [Hd|Hd]; [rewrite <- Hd; exact H3|]. apply (s8_diagram_low _ _ Hd); [|exact H3].
      intro E. destruct (Q2 E) as [H|[H|H]]; [rewrite H, E in H3; cbn in H3; lia|congruence|lia].
    + assert (Er : rst d1 = R8Ok) by (apply s8_not_waiting; inversion Hl; assumption).
      split; [exact (s8_says_dns _ _ _ E2)|]. split; [exact K2|]. intros H3 H1. destruct H3 as [H3|H3]; [apply HK; auto|].
      destruct E2 as [(_ & _ & (_ & _ & E))|[(c & _ & _ & (_ & _ & E))|[(c & _ & _ & (_ & _ & E))|(E & _)]]]; try (rewrite H3 in E; discriminate E).
      * exfalso. rewrite H3 in E. destruct (sst d1); discriminate E.
      * apply K3; [left; rewrite E; cbn; lia|congruence].
    + assert (Er : rst d1 = R8Ok) by (apply s8_not_waiting; inversion Hl; assumption).
      split; [rewrite E2; exact K1|]. split; [exact K2|]. intros H3 H1. destruct H3 as [H3|H3]; [apply HK; auto|congruence].
    + assert (Er : rst d1 = R8Ok) by (apply s8_not_waiting; inversion Hl; assumption).
      split; [rewrite E2, <- Er; exact K1|]. split; [exact K2|]. intros H3 H1. destruct H3 as [H3|H3]; [apply HK; auto|congruence].
    + assert (Er : rst d1 = R8Ok) by (apply s8_not_waiting; inversion Hl; assumption).
      split; [rewrite E2, <- Er; exact K1|]. split; [exact K2|]. intros H3 H1. destruct H3 as [H3|H3]; [apply HK; auto|congruence].
  - intros e a d1 d2 _ HI K _ Hn Hcr (_ & _ & _ & _ & F & _) E1 E2 _ _. apply (s8_resolved_fields _ d1); auto.
    destruct F as [->|[x Ex]]; [reflexivity|]. rewrite Ex in Hcr. destruct Hcr as (_ & _ & Hc). cbn [drv_x s8_driver] in Hc.
    destruct x; cbn [sim_x] in Hc.
    + injection Hc as _ <-. reflexivity.
    + unfold sim_serial_lock in Hc. destruct (wait _); [injection Hc as _ <-; reflexivity|]. destruct (r8_ok _); injection Hc as _ <-; reflexivity.
    + injection Hc as _ <-. reflexivity.
    + unfold sim_request_id in Hc. destruct (wr _ 0 _) as [b1|]; [|discriminate]. cbn [bind] in Hc. destruct (wr b1 1 _) as [b2|]; [|discriminate]. cbn [bind] in Hc.
      destruct (wr b2 2 _) as [b3|]; [|discriminate]. cbn [bind] in Hc. injection Hc as _ <-. reflexivity.
    + destruct (sim_get_id _); [|discriminate]. cbn [bind] in Hc. injection Hc as _ <-. reflexivity.
  - intros a d1 d2 HI (K1 & K2 & K3) _ E. destruct (s8_reset_exact P d1 d2 HI E) as (y & -> & _). unfold s8_resolved. cbn. split; [split; discriminate|].
    split; [exact K2|]. intros [H|H]; [lia|discriminate].
  - apply Forall_forall. auto.
  - destruct HF as (_ & _ & F1 & F2 & _). unfold s8_resolved. cbn [fst snd]. rewrite F1, F2. cbn. split; [split; discriminate|]. split; [discriminate|]. intros [H|H]; [lia|discriminate].
Qed.

(** An output action is the last one of a run(). *)
Lemma s8_output_at : forall P d e d' b, s8_step P d e d' -> In b (e_acts e) ->
  match b with aCommand _ _ | aAnnounce _ _ | aPayload _ | aReceive _ => True | _ => False end ->
  exists d2 d1, keep d d2 /\ olab8 d2 d1 b /\ s8_out_ext d2 b d1 /\ d' = set_io (io d') d1.
Proof.
  intros P d e d' b Hs Hin Hb.
  assert (Eo : exists oo, e_op e = OpRun oo).
  { destruct (s8_cases P d e d' Hs) as (d1 & _ & _ & [(oo & E & _)|(_ & E & _)]); [eauto|]. rewrite E in Hin. destruct Hin. }
  destruct Eo as [oo Eo].
  destruct (s8_parts P d e d' oo Hs Eo) as (d1 & Hd & [(E & _)|(_ & _ & l & dp & Hp & Hr)]); [rewrite E in Hin; destruct Hin|].
  assert (Hl : forall c, In c l -> exists q, c = aReset q).
  { intros c Hc. destruct Hp as [(_ & -> & _)|(_ & q & -> & _)]; [destruct Hc|]. destruct Hc as [<-|[]]. eauto. }
  assert (Hk : keep (during (e_sch e) d) dp).
  { destruct Hp as [(_ & _ & ->)|(_ & q & _ & (_ & _ & Hk & _) & _)]; [unfold keep; splits; reflexivity|exact Hk]. }
  assert (Hnl : ~ In b l) by (intro Hc; destruct (Hl b Hc) as [q ->]; exact Hb).
  destruct Hr as (a & d2 & r & Hi & Hx & Hr).
  assert (Hna : b <> a) by (intros ->; destruct a; try exact Hb; inversion Hi).
  destruct Hr as [(E & _)|(b' & E & Ho & Hox)]; rewrite E in Hin; apply in_app_or in Hin as [Hin|Hin]; try contradiction.
  - destruct Hin as [Hin|[]]. congruence.
  - destruct Hin as [Hin|[Hin|[]]]; [congruence|]. subst b'. exists d2, d1. splits; auto.
    assert (Hk2 : keep dp d2) by (inversion Hi; assumption). clear - Hk Hk2. unfold keep in *. cbn in Hk. intuition congruence.
Qed.

(** The open command names the address that was resolved last. *)
Theorem s8_open_address : forall P d0 tr d e d' cmd q, s8_built d0 -> s8_hist P d0 (tr ++ [e]) d' -> s8_step P d e d' ->
  In (aCommand cmd q) (e_acts e) -> prefixb (bs "AT+CIPSTART=") cmd = true ->
  exists a, fst (dns_log (tr ++ [e])) = Some a /\
    cmd = bs "AT+CIPSTART=0," ++ quoted (if (typ d =? UDP)%Z then bs "UDP" else bs "TCP") ++ bs "," ++ quoted a ++ bs "," ++ dec (port d) ++ [CR; LF].
Proof.
  intros P d0 tr d e d' cmd q HB Hh' Hs Hin Hp.
  pose proof (s8_dns_history P d0 _ d' (s8_built_fresh _ HB) Hh') as (_ & K2 & K3).
  destruct (s8_output_at P d e d' _ Hs Hin I) as (d2 & d1 & Hkp & Ho & Hox & Hd).
  destruct (s8_out_effect _ _ _ Ho Hox) as (_ & (Q1 & _) & Hsay).
  assert (E1 : typ d2 = typ d) by apply Hkp. assert (E2 : port d2 = port d) by apply Hkp.
  assert (Hip : str_body (ip (ext d2)) = str_body (ip (ext d'))) by (rewrite Hd; cbn [ext set_io]; destruct Q1 as [->|[-> _]]; reflexivity).
  destruct Hsay as [(_ & -> & _)|[(c & Hc & -> & _)|[(c & Hc & -> & (N1 & _ & N3))|(_ & _ & n & -> & _)]]]; try discriminate Hp.
  - exfalso. unfold id_request in Hc. destruct (nth_error _ 1) as [t|]; [|discriminate]. destruct (id_of_code t) as [[]|]; try discriminate Hc; injection Hc as <-; discriminate Hp.
  - unfold s8_command in Hc. rewrite E1, E2 in Hc. destruct (sst d2); try discriminate Hc; apply some_eq in Hc; subst c; try discriminate Hp.
    cbn [s8_after fst snd] in N1, N3.
    assert (N1' : sst d' = S8FinalizeConnect) by (rewrite Hd; exact N1). assert (N3' : rst d' = R8Cipstart) by (rewrite Hd; exact N3).
    rewrite N1', N3' in K3. destruct (fst (dns_log (tr ++ [e]))) as [a'|]; [|contradiction K3; [left; cbn; lia|discriminate|reflexivity]].
    exists a'. split; [reflexivity|]. rewrite <- (K2 a' eq_refl), <- Hip. unfold quoted. repeat rewrite <- app_assoc. reflexivity.
Qed.

(** ** Identification *)

Definition s8_idstate (acc : idlog) (d : dv) : Prop :=
  il_nul acc = true \/
  (nth_error (idbuf (ext d)) 0 = Some NUL /\
   match il_req acc with
   | Some t => nth_error (idbuf (ext d)) 2 = Some (id_code t)
   | None => nth_error (idbuf (ext d)) 1 = Some (id_code idNone) /\ rst d <> R8RequestID
   end) \/
  (nth_error (idbuf (ext d)) 0 <> Some NUL /\ rst d <> R8RequestID /\ id_answer acc (str_body (idbuf (ext d)))).

Lemma s8_idstate_fields : forall acc d d', idbuf (ext d') = idbuf (ext d) -> (rst d' = R8RequestID -> rst d = R8RequestID) -> s8_idstate acc d -> s8_idstate acc d'.
Proof.
  intros acc d d' E1 E2 [H|[(H1 & H2)|(H1 & H2 & H3)]]; unfold s8_idstate; rewrite E1.
  - left. exact H.
  - right. left. split; [exact H1|]. destruct (il_req acc); [exact H2|]. destruct H2 as [H2 H3]. split; [exact H2|]. intro K. exact (H3 (E2 K)).
  - right. right. split; [exact H1|]. split; [intro K; exact (H2 (E2 K))|exact H3].
Qed.

Lemma s8_idstate_more : forall acc d L, s8_idstate acc d -> s8_idstate (mkIdlog (il_req acc) (il_lines acc ++ [L]) (il_nul acc || negb (nulfree L))) d.
Proof.
  intros acc d L [H|[H|(H1 & H2 & (t & L' & s & A1 & A2 & A3))]].
  - left. cbn. rewrite H. reflexivity.
  - right. left. exact H.
  - right. right. split; [exact H1|]. split; [exact H2|]. exists t, L', s. split; [exact A1|]. split; [apply in_or_app; left; exact A2|exact A3].
Qed.

(** Lines that disturb: with NUL characters, or taken while the signal strength
    is awaited. *)
Definition csq_asked (b : bool) (a : act) : bool :=
  match a with
  | aCommand cmd _ => same cmd (bs "AT+CSQ" ++ [CR; LF])
  | aLine _ L => b && negb (prefixb (bs "+CSQ: ") L)
  | aReset _ => false
  | _ => b
  end.
Definition id8_act (acc : bool * idlog) (a : act) : bool * idlog :=
  (csq_asked (fst acc) a,
   match a with
   | aLine _ L => mkIdlog (il_req (snd acc)) (il_lines (snd acc) ++ [L]) (il_nul (snd acc) || negb (nulfree L) || fst acc && s8_stray L)
   | _ => snd acc
   end).
Definition id8_call (acc : bool * idlog) (e : ent) : bool * idlog :=
  (match e_op e with OpResetStates => false | _ => fst acc end, id_call (snd acc) e).
Definition id8_log (tr : list ent) : bool * idlog := fold_left (reading id8_act id8_call) tr (false, mkIdlog None [] false).

Theorem s8_id_history : forall P d0 tr d, s8_built d0 -> s8_hist P d0 tr d ->
  s8_idstate (snd (id8_log tr)) d /\ (rst d = R8Csq -> fst (id8_log tr) = true).
Proof.
  intros P d0 tr d HB Hh. unfold id8_log.
  apply (call_ghost _ _ _ _ _ (s8_contract P) _ (fun acc d => s8_idstate (snd acc) d /\ (rst d = R8Csq -> fst acc = true)) id8_act id8_call (fun _ => True)) with (d := d0); auto.
  - intros a d1 q d2 [K _] _ _ (_ & R2 & _ & _ & R5 & _). cbn [id8_act fst snd]. split; [apply (s8_idstate_fields _ d1); auto; [congruence|]|]; rewrite R2; discriminate.
  - intros a d1 r d2 b [K KC] Hl [HI Hx].
    destruct b as [q|tk|tk1 tk2|tk L| |cmd q|n q|q|tk]; cbn [id8_act fst snd csq_asked]; try (inversion Hl; fail);
      try (destruct Hx as (X0 & X1 & _ & _ & _ & X2 & _); split; [apply (s8_idstate_fields _ d1); auto; congruence|intro; apply KC; congruence]).
    assert (Hwl : whole_line L) by (inversion Hl; assumption).
    apply (s8_idstate_more _ _ L) in K. destruct Hx as [HC Hx]. apply s8_line_effect in Hx.
    assert (HR : rst d2 = rst d1 \/ rst d2 = R8Ok) by (unfold s8_ictl in HC; pick HC). clear HC.
    split; [|intro E; destruct HR as [HR|HR]; [|congruence]; rewrite KC by congruence; cbn [andb]; unfold s8_effect in Hx;
      destruct (prefixb (bs "+CSQ: ") L) eqn:Ep; [|reflexivity]; exfalso;
      assert (Ef : s8_refused L = false) by (apply prefixb_spec in Ep as [t ->]; reflexivity); rewrite Ef, <- HR, E, ?Ep in Hx;
      destruct Hx as (_ & b & _ & Hx); rewrite orb_true_r in Hx; congruence].
    set (a' := mkIdlog (il_req (snd a)) (il_lines (snd a) ++ [L]) (il_nul (snd a) || negb (nulfree L) || fst a && s8_stray L)).
    assert (K' : s8_idstate a' d1) by (destruct K as [K|K]; [left; cbn in *; rewrite K; reflexivity|right; exact K]). clear K. rename K' into K.
    destruct (nulfree L) eqn:En; [|left; unfold a'; cbn; rewrite orb_true_r; reflexivity].
    assert (Keep : idbuf (ext d2) = idbuf (ext d1) -> s8_idstate a' d2) by (intro E; apply (s8_idstate_fields _ d1); auto; destruct HR; congruence).
    unfold s8_effect, s8_ident in Hx. destruct (s8_refused L) eqn:Ef; [apply Keep; rewrite (proj1 (proj2 Hx)); reflexivity|].
    destruct (rst d1) eqn:Er1; try (apply Keep; rewrite (proj2 Hx); reflexivity); try (apply Keep; rewrite (proj1 (proj2 Hx)); reflexivity).
    + destruct Hx as (_ & b & Hx & _). destruct b; [|apply Keep; rewrite (proj2 Hx); reflexivity].
      destruct Hx as (s & r' & [Y1 Y2] & _). left. unfold a', s8_stray. cbn [il_nul]. rewrite KC, Ef, Y1 by reflexivity. apply orb_true_r.
    + destruct Hx as (_ & b & Hx & X1). destruct b; [|apply Keep; rewrite (proj2 Hx); reflexivity].
      destruct Hx as (s & r' & [Y1 Y2] & X2).
      destruct K as [K|[(K1 & K2)|(_ & K2 & _)]]; [left; exact K| |congruence].
      destruct (il_req a') as [t|] eqn:Eq; [|exfalso; apply K2; exact Er1].
      destruct (id_reply_text L s Hwl En Y1) as [Z1 Z2].
      destruct (id_stored_first s r' (idbuf (ext d1)) Z1 Z2) as [(_ & Z)|(Z3 & Z4)].
      * right. left. rewrite X2. cbn [idbuf set_idbuf]. rewrite Z, Eq. split; [reflexivity|]. destruct (idbuf (ext d1)); [discriminate K1|exact K2].
      * right. right. rewrite X2. cbn [idbuf set_idbuf]. split; [exact Z3|]. split; [rewrite X1; discriminate|].
        exists t, L, s. split; [exact Eq|]. split; [unfold a'; cbn; apply in_or_app; right; left; reflexivity|]. split; [exact Y1|]. split; [|exact Z4].
        intros ->. apply Y2. exact K2.
    + destruct Hx as [_ [(_ & _ & x & _ & _ & _ & X2)|(_ & _ & X2)]]; apply Keep; rewrite X2; reflexivity.
  - intros e a0 d1 d2 b _ [K KC] Hl Hx. destruct (s8_out_effect _ _ _ Hl Hx) as (_ & (Q1 & Q2 & _) & E2).
    set (a := snd a0) in *. assert (G : s8_idstate a d2).
    2:{ split; [destruct b; try exact G; inversion Hl|]. cbn [id8_act fst]. destruct b as [q|tk|tk1 tk2|tk L| |cmd q|n q|q|tk]; cbn [csq_asked]; try (inversion Hl; fail); try (rewrite E2; exact KC).
        - apply (s8_says_csq _ _ _ E2).
        - rewrite E2. discriminate.
        - rewrite E2. discriminate. }
    destruct K as [K|[(K1 & K2)|(K1 & K2 & K3)]].
    + left. exact K.
    + right. left. assert (Hn0 : nth_error (idbuf (ext d2)) 0 = Some NUL).
      { destruct Q1 as [->|[-> _]]; [exact K1|]. cbn [idbuf set_idbuf]. rewrite nth_list_set_ne by discriminate. exact K1. }
      split; [exact Hn0|]. destruct (il_req a) as [t|].
      * destruct Q1 as [->|[-> _]]; [exact K2|]. cbn [idbuf set_idbuf]. rewrite nth_list_set_ne by discriminate. exact K2.
      * destruct K2 as [K2 K3]. split.
        -- destruct Q1 as [->|[-> _]]; [exact K2|]. cbn [idbuf set_idbuf]. rewrite nth_list_set_eq; [reflexivity|].
           apply nth_error_Some. rewrite K2. discriminate.
        -- intro E. destruct b; try (inversion Hl; fail); try congruence.
           destruct E2 as [(_ & _ & (_ & _ & E3))|[(c & Hc & _)|[(c & _ & _ & (_ & _ & E3))|(_ & (_ & _ & E3) & _)]]]; try (rewrite E in E3; discriminate E3).
           ++ unfold id_request in Hc. rewrite K2 in Hc. discriminate Hc.
           ++ rewrite E in E3. destruct (sst d1); discriminate E3.
    + destruct Q1 as [Q1|[_ Q1]]; [|congruence]. right. right. rewrite Q1. split; [exact K1|]. split; [|exact K3]. intro E. destruct (Q2 E); congruence.
  - intros e a0 d1 d2 _ HI [K KC] Hn Hcr (_ & _ & _ & _ & F & _) E1 E2 _ _. unfold id8_call. cbn [fst snd].
    split; [|rewrite E2; destruct (e_op e); try exact KC; discriminate Hn]. set (a := snd a0) in *. unfold id_call.
    assert (Keep : ext d2 = ext d1 -> s8_idstate a d2) by (intro E; apply (s8_idstate_fields _ d1); auto; congruence).
    destruct (e_op e) as [| | | | | | | | | | | | | | | | | |x] eqn:Eo; try discriminate Hn; try (destruct F as [F|[x F]]; [exact (Keep F)|discriminate F]).
    destruct Hcr as (_ & _ & Hc). cbn [drv_x s8_driver] in Hc. destruct x; cbn [sim_x] in Hc.
    + injection Hc as _ <-. apply (s8_idstate_fields _ d1); auto.
    + unfold sim_serial_lock in Hc. destruct (wait _); [injection Hc as _ <-; exact K|]. destruct (r8_ok _); injection Hc as _ <-; exact K.
    + injection Hc as _ <-. exact K.
    + assert (Hl : 2 < length (idbuf (ext d1))) by (destruct HI as ((_ & _ & Hid & _) & _); rewrite Hid; lia).
      unfold sim_request_id in Hc. rewrite wr_ok in Hc by lia. cbn [bind] in Hc. rewrite wr_ok in Hc by (rewrite list_set_length; lia). cbn [bind] in Hc.
      rewrite wr_ok in Hc by (rewrite !list_set_length; lia). cbn [bind] in Hc. injection Hc as _ <-. right. left. cbn [ext idbuf set_x_idbuf set_ext set_idbuf il_req].
      rewrite !nth_list_set_ne by discriminate. split; [apply nth_list_set_eq; lia|]. apply nth_list_set_eq. rewrite !list_set_length. lia.
    + destruct (sim_get_id _); [|discriminate]. cbn [bind] in Hc. injection Hc as _ <-. exact K.
  - intros e a d1 d2 HI _ Eo _ E. unfold id8_call, id_call. rewrite Eo. cbn [fst snd].
    split; [right; left; cbn [il_req]|destruct (s8_reset_exact P d1 d2 HI E) as (y & -> & _); discriminate].
    assert (Hl : 2 < length (idbuf (ext d1))) by (destruct HI as ((_ & _ & Hid & _) & _); rewrite Hid; lia).
    destruct (s8_reset_exact P d1 d2 HI E) as (y & -> & _). cbn [s8_reseted ext idbuf set_idbuf rst].
    rewrite (nth_list_set_ne _ 1 0) by discriminate. rewrite nth_list_set_eq by lia. rewrite nth_list_set_eq by (rewrite list_set_length; lia).
    split; [reflexivity|]. split; [reflexivity|discriminate].
  - apply Forall_forall. auto.
  - split; [|pose proof (s8_built_fresh _ HB) as (_ & _ & _ & F2 & _); rewrite F2; discriminate]. right. left. split; [exact (s8_built_id0 d0 HB)|]. split; [exact (s8_built_id d0 HB)|].
    pose proof (s8_built_fresh _ HB) as (_ & _ & _ & F2 & _). rewrite F2. discriminate.
Qed.

(** What getIDString() returns. *)
Theorem s8_id_answer : forall P d0 tr d e d' s, s8_built d0 -> s8_hist P d0 tr d -> s8_step P d e d' ->
  e_op e = OpX GetID -> e_out e = DStr (Some s) -> il_nul (snd (id8_log tr)) = false -> id_answer (snd (id8_log tr)) s.
Proof.
  intros P d0 tr d e d' s HB Hh Hs Eo Eout Hn. pose proof (proj1 (s8_id_history P d0 tr d HB Hh)) as K.
  destruct (s8_cases P d e d' Hs) as (d1 & _ & HA & [(oo & E & _)|(_ & _ & _ & Hc)]); [congruence|].
  rewrite Eo, Eout in Hc. destruct Hc as (_ & _ & Hc). cbn [drv_x s8_driver sim_x] in Hc.
  destruct (sim_get_id (during (e_sch e) d)) as [r|] eqn:Eg; [|discriminate]. cbn [bind] in Hc. injection Hc as Er _. subst r.
  unfold sim_get_id in Eg. destruct (wait _); [discriminate|]. change (ext (during (e_sch e) d)) with (ext d) in Eg.
  unfold rd in Eg. destruct (nth_error (idbuf (ext d)) 0) as [c0|] eqn:E0; [|discriminate]. cbn [bind] in Eg. unfold aeqb in Eg.
  destruct (Ascii.eqb_spec c0 NUL) as [->|Hne]; [discriminate|].
  destruct K as [K|[(K1 & _)|(_ & _ & K)]]; [congruence|congruence|].
  destruct (cstring (idbuf (ext d))) as [s'|] eqn:Es; [|discriminate]. cbn [bind] in Eg. injection Eg as ->.
  assert (Hb : str_body (idbuf (ext d)) = s). { rewrite cstring_ok in Es; [congruence|]. exact (proj2 (proj2 (proj2 (proj2 (proj2 (proj1 HA)))))). }
  rewrite <- Hb. exact K.
Qed.
