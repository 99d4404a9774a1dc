(** Signal strength and MAC address in histories of the CC1352P7 driver. *)
From Coq Require Import String Ascii ZArith List Bool Arith Lia ZifyBool ZifyNat.
From Verif Require Import Base QueueSpec LineSpec SerialSpec Ring RingProofs LineRing LineRingProofs Serial SerialProofs
  SerStep TaskMacros CStr CStrProofs Dev DevProofs SimDev SimProofs SimSpec SimParse SimLog Sym DrvStep DrvCommon DrvRun DrvHist DrvActs
  Espressif Cc1352 CcSpec CcProofs CcCtl CcCtlIn CcRun AtLine CcHist CcThms CcMore CcLine.
Import ListNotations.
Local Open Scope nat_scope.
Ltac Zify.zify_post_hook ::= Z.div_mod_to_equations.
Local Notation dv := (dev ccsend ccreply ccx).
Local Notation ent := (@entry ccop).
Local Notation olabC P := (olab rc_ok (sc_says P) sc_tail sc_insend false).

Definition sc_out_req (P : plat) (d d' : dv) : Prop :=
  (ext d' = ext d \/ (ext d' = mkCcx (list_set (cmac (ext d)) 1 NUL) /\ mac_request P (cmac (ext d)) = true /\ rst d' = RCReqMac)) /\
  (rst d' = RCReqMac -> rst d = RCReqMac \/ mac_request P (cmac (ext d)) = true /\ ext d' = mkCcx (list_set (cmac (ext d)) 1 NUL)) /\
  (wait d' = Some (bs ">") -> wait d = Some (bs ">") \/ sst d' = SCSendDataState /\ rst d' = RCOk).

Lemma sc_output_req : forall P (U : Prop) d, sc_inv d ->
  (sst d = SCSendCipstart -> not_str (host d) -> U) ->
  wp U (sc_output P d) (sc_out_req P d).
Proof.
  intros P U d H HU. unfold sc_output. destruct (wait d) eqn:Ew.
  { cbn [wp]. unfold sc_out_req. auto. }
  destruct (rst d) eqn:Er; cbn [rc_ok negb wp].
  all: try (unfold sc_out_req; rewrite ?Er; auto; fail).
  open_inv d H. subst. syms.
  all: try (match goal with |- wp _ (sc_machine _) _ =>
       unfold sc_machine, at_handle_connect, at_handle_disconnect; gs; destruct ss0; gs; syms end).
  all: try (apply HU; [reflexivity | unfold not_str; congruence]).
  all: clear Hwf Hr Ht Hrw Hrs Hww Hws Hwf2 Hl Hw Hpo Hcm HU; cases; unfold sc_out_req; gs.
  all: split; [first [left; reflexivity | right; splits; [reflexivity|assumption|reflexivity]] | split; [first [discriminate | (intros _; right; split; [assumption|reflexivity])] | 
    first [discriminate | (intros _; right; split; reflexivity)]]].
Qed.

Lemma sc_out_effect : forall P d d' b, olabC P d d' b -> sc_out_ext P d b d' -> rssi d' = rssi d /\ sc_out_req P d d' /\
  match b with
  | aCommand cmd _ => sc_says P d cmd d'
  | aPayload _ | aReceive _ => rst d' = RCOk
  | _ => rst d' = rst d
  end.
Proof.
  intros P d d' b Hl (HI & Hc & Ho). split; [apply Hc|]. split.
  - pose proof (sc_output_req P True d HI (fun _ _ => I)) as H. rewrite Ho in H. exact H.
  - pose proof (sc_output_after P True d HI (fun _ _ => I)) as H. rewrite Ho in H. destruct H as [A B].
    destruct Hl; auto.
    + apply A; [destruct (sst d); try discriminate; reflexivity|intro E; rewrite E in *; discriminate].
    + apply B; assumption.
Qed.

Lemma sc_not_waiting : forall d : dv, ~ awaiting rc_ok d -> rst d = RCOk.
Proof. intros d H. unfold awaiting in H. destruct (rst d); try reflexivity; contradiction H; right; reflexivity. Qed.

(** An output action is the last one of a run(). *)
Lemma sc_output_at : forall P d e d' b, sc_step P d e d' -> fLock (fl d) = false -> In b (e_acts e) ->
  match b with aCommand _ _ | aAnnounce _ _ | aPayload _ | aReceive _ => True | _ => False end ->
  exists d2 d1, keep d d2 /\ olabC P d2 d1 b /\ sc_out_ext P d2 b d1 /\ d' = set_io (io d') d1.
Proof.
  intros P d e d' b Hs HL Hin Hb.
  assert (Eo : exists oo, e_op e = OpRun oo).
  { destruct (sc_cases P d e d' Hs) as (d1 & _ & _ & [(oo & E & _)|(_ & E & _)]); [eauto|]. rewrite E in Hin. destruct Hin. }
  destruct Eo as [oo Eo].
  destruct (sc_parts P d e d' oo Hs Eo HL) as (d1 & Hd & [(E & _)|(_ & l & dp & Hp & Hr)]); [rewrite E in Hin; destruct Hin|].
  assert (Hl : forall c, In c l -> exists q, c = aReset q).
  { intros c Hc. destruct Hp as [(_ & -> & _)|(_ & q & -> & _)]; [destruct Hc|]. destruct Hc as [<-|[]]. eauto. }
  assert (Hk : keep (during (e_sch e) d) dp).
  { destruct Hp as [(_ & _ & ->)|(_ & q & _ & (_ & _ & Hk & _) & _)]; [unfold keep; splits; reflexivity|exact Hk]. }
  assert (Hnl : ~ In b l) by (intro Hc; destruct (Hl b Hc) as [q ->]; exact Hb).
  destruct Hr as (a & d2 & r & Hi & Hx & Hr).
  assert (Hna : b <> a) by (intros ->; destruct a; try exact Hb; inversion Hi).
  destruct Hr as [(E & _)|(b' & E & Ho & Hox)]; rewrite E in Hin; apply in_app_or in Hin as [Hin|Hin]; try contradiction.
  - destruct Hin as [Hin|[]]. congruence.
  - destruct Hin as [Hin|[Hin|[]]]; [congruence|]. subst b'. exists d2, d1. splits; auto.
    assert (Hk2 : keep dp d2) by (inversion Hi; assumption). clear - Hk Hk2. unfold keep in *. cbn in Hk. intuition congruence.
Qed.

(** ** Signal strength *)

Lemma sc_says_csq : forall P d cmd d', sc_says P d cmd d' -> same cmd (bs "AT+CSQ" ++ [CR; LF]) = true <-> rst d' = RCCsq.
Proof.
  intros P d cmd d' H. rewrite same_true. destruct H as [(_ & -> & (_ & _ & ->))|[(Hi & -> & (_ & _ & ->))|[(c & Hs & -> & (_ & _ & ->))|(_ & (_ & _ & ->) & n & -> & _)]]].
  - split; reflexivity.
  - split; discriminate.
  - split; [|discriminate]. intro E. apply app_inv_tail in E. subst c. exfalso. unfold sc_command in Hs. destruct (sst d); discriminate Hs.
  - split; discriminate.
Qed.

(** The value getRSSI() is to return, whether an AT+CSQ may be unanswered, and
    whether a line with a MAC address disturbed it: cc1352p7.cpp:207-222 falls
    from the one case into the other. *)
Record rslogC := mkRslogC { rc_value : Z; rc_asked : bool; rc_stray : bool }.
Definition rssiC_act (P : plat) (acc : rslogC) (a : act) : rslogC :=
  match a with
  | aCommand cmd _ => if same cmd (bs "AT+CSQ" ++ [CR; LF]) then mkRslogC INT16_MAX true false else mkRslogC (rc_value acc) false (rc_stray acc)
  | aLine _ L =>
      if rc_asked acc then
        if prefixb (bs "+CSQ:") L then mkRslogC (i16 (number P (skipn 5 L))) false (rc_stray acc)
        else mkRslogC (rc_value acc) true (rc_stray acc || prefixb (bs "+CIPSTAMAC:" ++ [DQ]) L)
      else acc
  | aReset _ => mkRslogC (rc_value acc) false (rc_stray acc)
  | _ => acc
  end.
Definition rssiC_call (acc : rslogC) (e : ent) : rslogC :=
  match e_op e with OpRequestRSSI => mkRslogC INT16_MAX (rc_asked acc) (rc_stray acc) | OpResetStates => mkRslogC 255%Z false false | _ => acc end.
Definition rssiC_log (P : plat) (tr : list ent) : rslogC := fold_left (reading (rssiC_act P) rssiC_call) tr (mkRslogC 255%Z false false).

Definition sc_signal (acc : rslogC) (d : dv) : Prop :=
  (rst d = RCCsq -> rc_asked acc = true) /\ (rc_stray acc = false -> rssi d = rc_value acc /\ (rc_asked acc = true -> rst d = RCCsq)).

Theorem sc_rssi_history : forall P d0 tr d, sc_fresh False d0 -> sc_hist P d0 tr d -> sc_signal (rssiC_log P tr) d.
Proof.
  intros P d0 tr d HF Hh. unfold rssiC_log.
  apply (call_ghost _ _ _ _ _ (sc_contract False P) _ sc_signal (rssiC_act P) rssiC_call (fun _ => True)) with (d := d0); auto.
  - intros a d1 q d2 [K1 K2] _ _ (_ & R2 & _ & _ & _ & R6). unfold sc_signal. cbn [rssiC_act rc_value rc_asked rc_stray]. rewrite R2, R6. split; [discriminate|].
    intro E. split; [apply K2; exact E|discriminate].
  - intros a d1 r d2 b K Hl [_ Hx]. pose proof K as [K1 K2]. destruct b as [q|tk|tk1 tk2|tk line| |cmd q|n q|q|tk]; cbn [rssiC_act]; try (inversion Hl; fail);
      try (destruct Hx as (_ & X1 & _ & _ & X2 & _); unfold sc_signal; rewrite X1, X2; exact K).
    assert (Hwl : whole_line line) by (inversion Hl; assumption).
    destruct Hx as [_ Hx]. apply sc_line_effect in Hx; [|exact Hwl]. destruct Hx as [Hx _]. unfold sc_effect in Hx.
    destruct (rc_asked a) eqn:Ea.
    + destruct (prefixb (bs "+CSQ:") line) eqn:Ep.
      * assert (Ef : sc_refused d1 line = false) by (unfold sc_refused; apply prefixb_spec in Ep as [t ->]; apply andb_false_r).
        rewrite Ef in Hx. destruct Hx as (_ & X1 & X2 & _). unfold sc_takes_rssi in X1, X2. rewrite Ep in X1, X2.
        unfold sc_signal. cbn [rc_value rc_asked rc_stray]. destruct (rst d1) eqn:Er.
        all: try (split; [rewrite X1; destruct (_ || _ || _); discriminate|intro E; destruct (K2 E) as [_ K3]; specialize (K3 eq_refl); discriminate K3]).
        rewrite orb_true_r in X1. cbn [orb] in X1. rewrite X1, X2. split; [discriminate|]. intros _. split; [reflexivity|discriminate].
      * unfold sc_signal. cbn [rc_value rc_asked rc_stray]. split; [reflexivity|]. intro E. apply orb_false_iff in E as [E1 E2].
        destruct (K2 E1) as [J1 J2]. specialize (J2 eq_refl). destruct (sc_refused d1 line).
        -- destruct Hx as (X1 & _ & X3 & _). rewrite X1, X3. auto.
        -- destruct Hx as (_ & X1 & X2 & _). unfold sc_takes_rssi, sc_takes_mac, sc_data in X1, X2. rewrite J2, Ep in X1, X2. unfold mac_lit in X1. rewrite E2 in X1. cbn [orb] in X1.
           rewrite X1, X2. auto.
    + assert (Er : rst d1 <> RCCsq) by (intro E; specialize (K1 E); congruence).
      unfold sc_signal. rewrite Ea. destruct (sc_refused d1 line).
      * destruct Hx as (X1 & _ & X3 & _). rewrite X1, X3. split; [intro E; contradiction|exact K2].
      * destruct Hx as (_ & X1 & X2 & _). assert (Et : sc_takes_rssi d1 line = false) by (unfold sc_takes_rssi; destruct (rst d1); try reflexivity; contradiction Er; reflexivity).
        rewrite Et in X2. rewrite X2. split; [intro E; exfalso; rewrite E in X1; destruct (_ || _ || _) in X1; congruence|].
        intro E. split; [apply K2; exact E|discriminate].
  - intros e a d1 d2 b _ K Hl Hx. destruct (sc_out_effect _ _ _ _ Hl Hx) as (E1 & _ & E2). pose proof K as [K1 K2].
    destruct b as [q|tk|tk1 tk2|tk line| |cmd q|n q|q|tk]; cbn [rssiC_act]; try (inversion Hl; fail); try (unfold sc_signal; rewrite E1, E2; exact K).
    + pose proof (sc_says_csq _ _ _ _ E2) as Hc. unfold sc_signal. destruct (same cmd _) eqn:Es; cbn [rc_value rc_asked rc_stray].
      * split; [reflexivity|]. intros _. split; [|intros _; apply Hc; reflexivity]. rewrite E1.
        destruct E2 as [(E2 & _)|E2]; [exact E2|]. exfalso. apply same_true in Es.
        destruct E2 as [(_ & _ & (_ & _ & E3))|[(c & _ & _ & (_ & _ & E3))|(_ & (_ & _ & E3) & _)]];
          rewrite (proj1 Hc eq_refl) in E3; discriminate E3.
      * split; [intro E; apply Hc in E; discriminate E|]. intro E. rewrite E1. split; [apply K2; exact E|discriminate].
    + unfold sc_signal. rewrite E1, E2. split; [discriminate|]. intro E. split; [apply K2; exact E|]. intro F. exfalso. destruct (K2 E) as [_ K3].
      specialize (K3 F). inversion Hl as [| | |? Ha|]; subst. apply Ha. right. unfold sc_shape, sh_ok. rewrite K3. reflexivity.
    + unfold sc_signal. rewrite E1, E2. split; [discriminate|]. intro E. split; [apply K2; exact E|]. intro F. exfalso. destruct (K2 E) as [_ K3].
      specialize (K3 F). inversion Hl as [| | | |? Ha]; subst. apply Ha. right. unfold sc_shape, sh_ok. rewrite K3. reflexivity.
  - intros e a d1 d2 _ _ K Hn Hcr (_ & _ & _ & _ & _ & F & _) _ E2 _ _. pose proof K as [K1 K2]. unfold sc_signal, rssiC_call. rewrite E2.
    destruct F as [F|[F1 F2]]; [|rewrite F1; cbn [rc_value rc_asked rc_stray]; rewrite F2; split; [exact K1|]; intro E; split; [reflexivity|apply K2; exact E]].
    rewrite F. destruct (e_op e) eqn:Eo; try exact K; try discriminate Hn.
    destruct Hcr as [_ Hcr]. injection Hcr as _ <-. cbn [rc_value rc_asked rc_stray]. split; [exact K1|]. intro E. split; [exact (eq_sym F)|apply K2; exact E].
  - intros e a d1 d2 HI _ Eo _ E. unfold rssiC_call. rewrite Eo. destruct (sc_reset_exact False P d1 d2 HI E) as (y & -> & _). unfold sc_signal. cbn. split; [discriminate|]. intros _. split; [reflexivity|discriminate].
  - apply Forall_forall. auto.
  - destruct HF as (_ & _ & _ & F2 & _ & _ & _ & _ & _ & _ & _ & _ & _ & _ & _ & F3 & _). unfold sc_signal. rewrite F2, F3. cbn. split; [discriminate|]. intros _. split; [reflexivity|discriminate].
Qed.

(** ** MAC address *)

(** Whether requestMac() was called, and the lines read since the last call. *)
Record maclog := mkMaclog { ml_req : bool; ml_lines : list bytes }.
Definition mac_act (acc : maclog) (a : act) : maclog :=
  match a with aLine _ L => mkMaclog (ml_req acc) (ml_lines acc ++ [L]) | _ => acc end.
Definition macC_call (acc : maclog) (e : ent) : maclog :=
  match e_op e with OpX CRequestMac => mkMaclog true [] | _ => acc end.
Definition macC_log (tr : list ent) : maclog := fold_left (reading mac_act macC_call) tr (mkMaclog false []).
(** The text of an answer read since the last request. *)
Definition mac_answer (acc : maclog) (s : bytes) : Prop :=
  exists L, In L (ml_lines acc) /\ prefixb (bs "+CIPSTAMAC:" ++ [DQ]) L = true /\ s = mac_text L.

Definition sc_macstate (acc : maclog) (d : dv) : Prop :=
  ml_req acc = true -> nth_error (cmac (ext d)) 0 = Some NUL \/ mac_answer acc (str_body (cmac (ext d))).

Lemma mac_answer_more : forall acc L s, mac_answer acc s -> mac_answer (mkMaclog (ml_req acc) (ml_lines acc ++ [L])) s.
Proof. intros acc L s (L' & H1 & H2). exists L'. split; [cbn; apply in_or_app; left; exact H1|exact H2]. Qed.

Theorem sc_mac_history : forall P d0 tr d, sc_fresh False d0 -> sc_hist P d0 tr d -> sc_macstate (macC_log tr) d.
Proof.
  intros P d0 tr d HF Hh. unfold macC_log.
  apply (call_ghost _ _ _ _ _ (sc_contract False P) _ sc_macstate mac_act macC_call (fun _ => True)) with (d := d0); auto.
  - intros a d1 q d2 K _ _ (_ & _ & _ & _ & R5 & _). cbn [mac_act]. unfold sc_macstate. rewrite R5. exact K.
  - intros a d1 r d2 b K Hl [_ Hx]. destruct b as [q|tk|tk1 tk2|tk L| |cmd q|n q|q|tk]; cbn [mac_act]; try (inversion Hl; fail);
      try (destruct Hx as (_ & _ & _ & _ & _ & X & _); unfold sc_macstate; rewrite X; exact K).
    assert (Hwl : whole_line L) by (inversion Hl; assumption).
    destruct Hx as [_ Hx]. apply sc_line_effect in Hx; [|exact Hwl]. destruct Hx as [Hx _]. unfold sc_effect in Hx.
    assert (Keep : ext d2 = ext d1 -> sc_macstate (mkMaclog (ml_req a) (ml_lines a ++ [L])) d2).
    { intros E H. rewrite E. destruct (K H) as [K1|K1]; [left; exact K1|right; apply mac_answer_more; exact K1]. }
    destruct (sc_refused d1 L); [apply Keep; apply Hx|]. destruct Hx as (_ & _ & _ & X & _).
    destruct (sc_takes_mac d1 L) eqn:Et; [|apply Keep; exact X].
    intros _. right. exists L. split; [cbn; apply in_or_app; right; left; reflexivity|]. split; [|exact X].
    unfold sc_takes_mac in Et. destruct (rst d1); try discriminate Et; exact Et.
  - intros e a d1 d2 b _ K Hl Hx. destruct (sc_out_effect _ _ _ _ Hl Hx) as (_ & (Q & _) & _).
    assert (G : sc_macstate a d2).
    { intro H. destruct Q as [->|(-> & Hr & _)]; [exact (K H)|]. left. cbn [cmac].
      unfold mac_request in Hr. destruct (cmac (ext d1)) as [|c0 [|c1 t]]; try discriminate Hr.
      apply andb_true_iff in Hr as [Hr _]. apply andb_true_iff in Hr as [Hr _]. apply Ascii.eqb_eq in Hr. subst c0. reflexivity. }
    destruct b; try exact G; inversion Hl.
  - intros e a d1 d2 _ HI K Hn Hcr (_ & _ & _ & _ & F & _) _ _ _ _. unfold macC_call.
    assert (Keep : ext d2 = ext d1 -> sc_macstate a d2) by (intros E; unfold sc_macstate; rewrite E; exact K).
    destruct (e_op e) as [| | | | | | | | | | | | | | | | | |x] eqn:Eo; try discriminate Hn; try (destruct F as [F|[x F]]; [exact (Keep F)|discriminate F]).
    destruct Hcr as (_ & _ & Hc). cbn [drv_x sc_driver] in Hc. destruct x; cbn [sc_x] in Hc.
    + intros _. left. assert (Hl : length (cmac (ext d1)) = 24) by apply HI. unfold sc_request_mac in Hc.
      destruct (cmac (ext d1)) as [|c0 [|c1 t]]; try discriminate Hl. cbn in Hc. injection Hc as _ <-. reflexivity.
    + destruct (sc_get_mac d1); [|discriminate]. cbn [bind] in Hc. injection Hc as _ <-. exact K.
  - intros e a d1 d2 HI K Eo _ E. unfold macC_call. rewrite Eo. destruct (sc_reset_exact False P d1 d2 HI E) as (y & -> & _). exact K.
  - apply Forall_forall. auto.
  - discriminate.
Qed.

(** What getMac() returns once requestMac() was called. *)
Theorem sc_mac_answer : forall P d0 tr d e d' s, sc_built d0 -> sc_hist P d0 tr d -> sc_step P d e d' ->
  e_op e = OpX CGetMac -> e_out e = DStr (Some s) -> ml_req (macC_log tr) = true -> mac_answer (macC_log tr) s.
Proof.
  intros P d0 tr d e d' s HB Hh Hs Eo Eout Hn. pose proof (sc_mac_history P d0 tr d (sc_built_fresh _ HB) Hh Hn) as K.
  destruct (sc_cases P d e d' Hs) as (d1 & _ & HA & [(oo & E & _)|(_ & _ & _ & Hc)]); [congruence|].
  rewrite Eo, Eout in Hc. destruct Hc as (_ & _ & Hc). cbn [drv_x sc_driver sc_x] in Hc.
  destruct (sc_get_mac (during (e_sch e) d)) as [r|] eqn:Eg; [|discriminate]. cbn [bind] in Hc. injection Hc as Er _. subst r.
  unfold sc_get_mac in Eg. destruct (wait _); [discriminate|]. change (ext (during (e_sch e) d)) with (ext d) in Eg.
  unfold rd in Eg. destruct (nth_error (cmac (ext d)) 0) as [c0|] eqn:E0; [|discriminate]. cbn [bind] in Eg. unfold aeqb in Eg.
  destruct (Ascii.eqb_spec c0 NUL) as [->|Hne]; [discriminate|].
  destruct K as [K|K]; [congruence|].
  destruct (cstring (cmac (ext d))) as [s'|] eqn:Es; [|discriminate]. cbn [bind] in Eg. injection Eg as ->.
  assert (Hb : str_body (cmac (ext d)) = s).
  { clear - Es. revert s Es. induction (cmac (ext d)) as [|c l IH]; intros s Es; [discriminate|]. cbn in Es |- *. unfold aeqb in Es. change "000"%char with NUL in *.
    destruct (Ascii.eqb c NUL); [congruence|]. destruct (cstring l); [|discriminate]. cbn in Es. injection Es as <-. f_equal. apply IH. reflexivity. }
  rewrite <- Hb. exact K.
Qed.

(** With a signed char the query is never sent. *)
Theorem sc_mac_signed : forall P d e d' cmd q, char_signed P = true -> sc_step P d e d' -> fLock (fl d) = false ->
  In (aCommand cmd q) (e_acts e) -> prefixb (bs "AT+CIPSTAMAC") cmd = false.
Proof.
  intros P d e d' cmd q HP Hs HL Hin. destruct (sc_output_at P d e d' _ Hs HL Hin I) as (d2 & d1 & _ & Ho & Hox & _).
  destruct (sc_out_effect _ _ _ _ Ho Hox) as (_ & _ & Hsay).
  destruct Hsay as [(_ & -> & _)|[(Hi & _)|[(c & Hc & -> & _)|(_ & _ & n & -> & _)]]]; try reflexivity.
  - exfalso. unfold mac_request in Hi. rewrite HP in Hi. destruct (cmac (ext d2)) as [|c0 [|c1 t]]; try discriminate Hi. cbn [negb] in Hi. rewrite andb_false_r in Hi. discriminate Hi.
  - unfold sc_command in Hc. destruct (sst d2); try discriminate Hc; apply some_eq in Hc; subst c; reflexivity.
Qed.

(** With an unsigned one a request stays pending until the query is sent or an
    address is read. *)
Theorem sc_mac_kept : forall P d e d', sc_step P d e d' -> fLock (fl d) = false -> mac_request P (cmac (ext d)) = true ->
  mac_request P (cmac (ext d')) = true \/ (exists q, In (aCommand (bs "AT+CIPSTAMAC" ++ [CR; LF]) q) (e_acts e)) \/
  (exists tk L, In (aLine tk L) (e_acts e) /\ prefixb (bs "+CIPSTAMAC:" ++ [DQ]) L = true).
Proof.
  intros P d e d' Hs HL Hm. destruct (sc_cases P d e d' Hs) as (dx & Ed & HA & [(oo & Eo & _)|(Hn & Ea & Hr & Hc)]).
  - destruct (sc_parts P d e d' oo Hs Eo HL) as (d1 & Hd & [(E & _ & E1)|(_ & l & dp & Hp & Hr)]).
    { left. rewrite Hd, E1. destruct oo; exact Hm. }
    assert (Hpe : ext dp = ext d).
    { destruct Hp as [(_ & _ & ->)|(_ & q & _ & _ & (_ & _ & _ & _ & R5 & _))]; [reflexivity|exact R5]. }
    destruct Hr as (a & d2 & r & Hi & Hx & Hr).
    assert (Hin : In a (e_acts e)) by (destruct Hr as [(E & _)|(b & E & _)]; rewrite E; apply in_or_app; right; left; reflexivity).
    assert (G : ext d2 = ext d \/ exists tk L, In (aLine tk L) (e_acts e) /\ prefixb (bs "+CIPSTAMAC:" ++ [DQ]) L = true).
    { rewrite <- Hpe. destruct Hx as [_ Hx]. destruct a as [q|tk|tk1 tk2|tk L| |cmd q|n q|q|tk]; try (inversion Hi; fail); try (left; destruct Hx as (_ & _ & _ & _ & _ & Hx & _); exact Hx; fail).
      destruct Hx as [HC _]. unfold sc_ictl in HC. destruct HC as (_ & _ & _ & _ & _ & _ & _ & _ & _ & [X|(_ & X & _)] & _); [left; destruct (ext d2), (ext dp); cbn in X; congruence|].
      right. exists tk, L. split; [exact Hin|exact X]. }
    destruct G as [G|G]; [|right; right; exact G].
    destruct Hr as [(_ & -> & _)|(b & E & Ho & Hox)]; [left; rewrite Hd; cbn [ext set_io]; rewrite G; exact Hm|].
    destruct (sc_out_effect _ _ _ _ Ho Hox) as (_ & ([Q|(Q & _ & Q3)] & _) & Hsay).
    + left. rewrite Hd. cbn [ext set_io]. rewrite Q, G. exact Hm.
    + right. left. assert (Hb : rst d2 = RCOk \/ rst d2 <> RCOk) by (destruct (rst d2); auto; right; discriminate).
      destruct b as [q|tk|tk1 tk2|tk L| |cmd q|n q|q|tk]; try (inversion Ho; fail).
      * exfalso. destruct Hox as (_ & _ & Hox). assert (d1 = d2 \/ rst d2 = RCOk) as [->|E0] by (unfold sc_output in Hox; destruct (wait d2); [left; congruence|]; destruct (rst d2); auto; left; cbn in Hox; congruence).
        -- rewrite G in Q. clear - Q Hm. assert (Q' : cmac (ext d) = list_set (cmac (ext d)) 1 NUL) by exact (f_equal cmac Q).
           unfold mac_request in Hm. destruct (cmac (ext d)) as [|c0 [|c1 t]]; try discriminate Hm. cbn in Q'. injection Q' as ->. cbn in Hm. rewrite andb_false_r in Hm. discriminate Hm.
        -- congruence.
      * exists q. rewrite E. apply in_or_app. right. right. left. 
        destruct Hsay as [(_ & _ & (_ & _ & X))|[(_ & -> & _)|[(c & _ & _ & (_ & _ & X))|(_ & (_ & _ & X) & _)]]]; try congruence.
      * exfalso. assert (rst d2 = RCOk) by (apply sc_not_waiting; inversion Ho; assumption). congruence.
      * congruence.
      * congruence.
  - left. rewrite Ed. cbn [ext set_io].
    destruct Hr as [(_ & _ & _ & _ & _ & _ & _ & _ & _ & _ & _ & _ & _ & _ & _ & F)|[Eo _]].
    + destruct F as (_ & _ & _ & _ & [F|[x Eo]] & _); [rewrite F; exact Hm|]. rewrite Eo in Hc.
      destruct Hc as (_ & _ & Hc). cbn [drv_x sc_driver] in Hc. destruct x; cbn [sc_x] in Hc.
      * unfold sc_request_mac in Hc. change (ext (during (e_sch e) d)) with (ext d) in Hc. unfold mac_request in *. destruct (cmac (ext d)) as [|c0 [|c1 t]]; try discriminate Hm. cbn in Hc. injection Hc as _ <-.
        cbn. destruct (char_signed P); [cbn in Hm; rewrite andb_false_r in Hm; discriminate Hm|reflexivity].
      * destruct (sc_get_mac _); [|discriminate]. cbn [bind] in Hc. injection Hc as _ <-. exact Hm.
    + rewrite Eo in Hc. destruct Hc as (_ & _ & _ & Hc). destruct (sc_reset_exact False P _ _ HA Hc) as (y & -> & _). exact Hm.
Qed.

(** The run() that finds the driver at leisure, with room for a command and no
    new line, sends it. *)
Theorem sc_mac_sent : forall P d e d' oo, sc_step P d e d' -> e_op e = OpRun oo -> fLock (fl d) = false -> mac_request P (cmac (ext d)) = true ->
  isopen d = true -> fReset (fl d) = false -> wait d = None -> rst d = RCOk -> rssi d <> INT16_MAX -> fLine (fl d) = true ->
  e_sch e = [] -> txav (io d) + 20 <= txsz (io d) -> (forall tk L, ~ In (aLine tk L) (e_acts e)) ->
  exists q, In (aCommand (bs "AT+CIPSTAMAC" ++ [CR; LF]) q) (e_acts e).
Proof.
  intros P d e d' oo Hs Eo HL Hm H1 H2 H3 H4 H5 H6 He Ht Hn.
  destruct (sc_parts P d e d' oo Hs Eo HL) as (d1 & Hd & [(_ & E & _)|(_ & l & dp & Hp & Hr)]); [congruence|].
  destruct Hp as [(F & -> & ->)|(F & _)]; [|change (fReset (fl d) = true) in F; congruence].
  destruct Hr as (a & d2 & r & Hi & [_ Hx] & Hr).
  assert (Htx : txav (io d2) <= txav (io d)) by exact (ilab_tx (sc_shape P) _ _ _ _ Hi).
  destruct (ilab_io (sc_shape P) _ _ _ _ Hi) as (ev & Hst & _).
  assert (Hna : forall tk L, a <> aLine tk L) by (intros tk L ->; apply (Hn tk L); destruct Hr as [[-> _]|(b & -> & _)]; left; reflexivity).
  assert (Hs0 : sched (io (during (e_sch e) d)) = []) by (cbn; exact He).
  destruct Hr as [(_ & _ & ->)|(b & Ea & Hol & Hox)]; [exfalso; inversion Hi; subst; try discriminate; eapply Hna; reflexivity|].
  assert (Hsame : sc_same (during (e_sch e) d) d2) by (destruct a; try exact Hx; exfalso; eapply Hna; reflexivity).
  assert (Hfl : fLine (fl d2) = true) by (inversion Hi; subst; repeat match goal with H : fl _ = fl _ |- _ => rewrite H end; try exact H6; first [match goal with H : fl d2 = _ \/ fl d2 = _ |- _ => destruct H as [->| ->]; [exact H6|reflexivity] end|exfalso; eapply Hna; reflexivity]).
  destruct Hsame as (S1 & S2 & _ & S4 & S5 & S6 & _). cbn [during set_io sst rst wait rssi ext] in S1, S2, S4, S5, S6.
  pose proof Hox as (HI & _ & Eq). destruct HI as ((Hw & _) & Hcm).
  assert (Hrst : rst d1 = RCReqMac).
  { assert (Wp : wp True (sc_output P d2) (fun x => rst x = RCReqMac)); [|rewrite Eq in Wp; exact Wp].
    unfold sc_output. rewrite S4, H3, S2, H4. cbn [rc_ok negb]. unfold d_space. destruct (s_space_q (io d2) Hw) as (y & E1 & Q). rewrite E1. cbn [bind].
    destruct (Nat.ltb_spec (txsz y - txav y) 20) as [Hlt|Hge].
    { exfalso. apply quiet_ioeff in Q. pose proof (ioeff_av _ _ _ _ Q) as [_ A]. pose proof (ioeff_txsz _ _ _ _ Q). cbn [length] in A.
      pose proof (sstep_txsz _ _ _ Hst) as T. change (txsz (io (during (e_sch e) d))) with (txsz (io d)) in T. lia. }
    change (rssi (set_io y d2)) with (rssi d2). rewrite S5. destruct (Z.eqb_spec (rssi d) INT16_MAX); [contradiction|]. cbn [andb].
    unfold sc_send_mac. change (ext (set_io y d2)) with (ext d2). change (fl (set_io y d2)) with (fl d2). rewrite S6, Hfl.
    unfold mac_request in Hm. destruct (cmac (ext d)) as [|c0 [|c1 t]]; try discriminate Hm. cbn [rd nth_error bind wr].
    apply andb_true_iff in Hm as [Hm1 Hm2]. apply andb_true_iff in Hm1 as [Hm0 Hm1]. unfold char_is_ff, aeqb. rewrite Hm0, Hm1, Hm2. cbn [andb]. unfold wr. cbn [nth_error bind list_set].
    assert (Hwy : serial_wf (ser y)) by (apply quiet_ioeff in Q; destruct (ioeff_ev _ _ _ _ Q) as (ev2 & T & _); apply T).
    unfold at_send_command. do 4 apply wp_bind. apply wp_w_str; [exact Hwy|]. intros y3 (p & W & _). apply wp_w_str; [|intros; cbn; reflexivity].
    destruct (ioeff_ev _ _ _ _ W) as (ev3 & T & _). apply T. }
  assert (S2' : rst d2 = RCOk) by congruence.
  destruct (sc_out_effect _ _ _ _ Hol Hox) as (_ & _ & Hsay). rewrite Ea.
  destruct b as [q|tk|tk1 tk2|tk L| |cmd q|n q|q|tk]; try (inversion Hol; fail); try congruence.
  exists q. right. left. destruct Hsay as [(_ & _ & (_ & _ & X))|[(_ & -> & _)|[(c & _ & _ & (_ & _ & X))|(_ & (_ & _ & X) & _)]]]; try congruence.
Qed.
