(** Signal strength and MAC address in histories of the Espressif driver. *)
From Coq Require Import String Ascii ZArith List Bool Arith Lia ZifyBool ZifyNat.
From Verif Require Import Base QueueSpec LineSpec SerialSpec Ring RingProofs LineRing LineRingProofs Serial SerialProofs
  SerStep TaskMacros CStr CStrProofs Dev DevProofs SimDev SimProofs SimSpec SimParse SimLog Sym DrvStep DrvCommon DrvRun DrvHist DrvActs
  Espressif EsSpec EsFill EsProofs EsCtl EsCtlIn EsRun AtLine EsHist EsThms EsMore EsLine.
Import ListNotations.
Local Open Scope nat_scope.
Ltac Zify.zify_post_hook ::= Z.div_mod_to_equations.
Local Notation dv := (dev essend esreply espx).
Local Notation ent := (@entry esop).
Local Notation olabE P := (olab re_ok (se_says P) se_tail se_insend false).
Local Notation ilabE := (ilab se_insend se_whole (fun _ : dv => partial_line) se_clears).

Definition se_out_req (P : plat) (d d' : dv) : Prop :=
  (ext d' = ext d \/ (ext d' = mkEspx (ssid (ext d)) (passwd (ext d)) (list_set (emac (ext d)) 1 NUL) /\ se_mac_request P (emac (ext d)) = true /\ rst d' = REReqMac)) /\
  (rst d' = REReqMac -> rst d = REReqMac \/ se_mac_request P (emac (ext d)) = true /\ ext d' = mkEspx (ssid (ext d)) (passwd (ext d)) (list_set (emac (ext d)) 1 NUL)) /\
  (wait d' = Some (bs ">") -> wait d = Some (bs ">") \/ sst d' = SESendDataState /\ rst d' = REOk).

Lemma se_output_req : forall P (U : Prop) d, se_inv d ->
  (sst d = SESendCipstart -> not_str (host d) -> U) ->
  (sst d = SESendCwjap -> not_str (ssid (ext d)) \/ not_str (passwd (ext d)) -> U) ->
  wp U (se_output P d) (se_out_req P d).
Proof.
  intros P U d H HU HU2. unfold se_output. destruct (wait d) eqn:Ew.
  { cbn [wp]. unfold se_out_req. auto. }
  destruct (rst d) eqn:Er; cbn [re_ok negb wp].
  all: try (unfold se_out_req; rewrite ?Er; auto; fail).
  open_inv d H. subst. syms.
  all: try (match goal with |- wp _ (se_machine _) _ =>
       unfold se_machine, at_handle_connect, at_handle_disconnect; gs; destruct ss0; gs; syms end).
  all: try (apply HU; [reflexivity | unfold not_str; congruence]).
  all: try (apply HU2; [reflexivity | unfold not_str; first [left; congruence | right; congruence]]).
  all: clear Hwf Hr Ht Hrw Hrs Hww Hws Hwf2 Hl Hw Hpo Hcm HU; cases; unfold se_out_req; gs.
  all: split; [first [left; reflexivity | right; splits; [reflexivity|assumption|reflexivity]] | split; [first [discriminate | (intros _; right; split; [assumption|reflexivity])] | 
    first [discriminate | (intros _; right; split; reflexivity)]]].
Qed.

Lemma se_out_effect : forall P d d' b, olabE P d d' b -> se_out_ext P d b d' -> rssi d' = rssi d /\ se_out_req P d d' /\
  match b with
  | aCommand cmd _ => se_says P d cmd d'
  | aPayload _ | aReceive _ => rst d' = REOk
  | _ => rst d' = rst d
  end.
Proof.
  intros P d d' b Hl (HI & Hc & Ho). split; [apply Hc|]. split.
  - pose proof (se_output_req P True d HI (fun _ _ => I) (fun _ _ => I)) as H. rewrite Ho in H. exact H.
  - pose proof (se_output_after P True d HI (fun _ _ => I) (fun _ _ => I)) as H. rewrite Ho in H. destruct H as [A B].
    destruct Hl; auto.
    + apply A; [destruct (sst d); try discriminate; reflexivity|intro E; rewrite E in *; discriminate].
    + apply B; assumption.
Qed.

Lemma se_not_waiting : forall d : dv, ~ awaiting re_ok d -> rst d = REOk.
Proof. intros d H. unfold awaiting in H. destruct (rst d); try reflexivity; contradiction H; right; reflexivity. Qed.

(** An output action is the last one of a run(). *)
Lemma se_output_at : forall P d e d' b, se_step P d e d' -> fLock (fl d) = false -> In b (e_acts e) ->
  match b with aCommand _ _ | aAnnounce _ _ | aPayload _ | aReceive _ => True | _ => False end ->
  exists d2 d1, keep d d2 /\ olabE P d2 d1 b /\ se_out_ext P d2 b d1 /\ d' = set_io (io d') d1.
Proof.
  intros P d e d' b Hs HL Hin Hb.
  assert (Eo : exists oo, e_op e = OpRun oo).
  { destruct (se_cases P d e d' Hs) as (d1 & _ & _ & [(oo & E & _)|(_ & E & _)]); [eauto|]. rewrite E in Hin. destruct Hin. }
  destruct Eo as [oo Eo].
  destruct (se_parts P d e d' oo Hs Eo HL) as (d1 & Hd & [(E & _)|[(_ & _ & q & E & _)|(_ & _ & a & d2 & r & Hi & Hx & Hr)]]);
    [rewrite E in Hin; destruct Hin|rewrite E in Hin; destruct Hin as [<-|[]]; destruct Hb|].
  assert (Hna : b <> a) by (intros ->; destruct a; try exact Hb; inversion Hi).
  destruct Hr as [(E & _)|(b' & _ & E & Ho & Hox)]; rewrite E in Hin.
  - destruct Hin as [Hin|[]]. congruence.
  - destruct Hin as [Hin|[Hin|[]]]; [congruence|]. subst b'. exists d2, d1. splits; auto.
    assert (Hk2 : keep (during (e_sch e) d) d2) by (inversion Hi; assumption). exact Hk2.
Qed.

(** ** Signal strength *)

Lemma se_says_rssi : forall P d cmd d', se_says P d cmd d' -> same cmd (bs "AT+CWJAP?" ++ [CR; LF]) = true <-> rst d' = RERssi.
Proof.
  intros P d cmd d' H. rewrite same_true. destruct H as [(_ & -> & (_ & _ & ->))|[(Hi & -> & (_ & _ & ->))|[(c & Hs & -> & (_ & _ & ->))|(_ & (_ & _ & ->) & n & -> & _)]]].
  - split; reflexivity.
  - split; discriminate.
  - split; [|discriminate]. intro E. apply app_inv_tail in E. subst c. exfalso. unfold se_command in Hs. destruct (sst d); discriminate Hs.
  - split; discriminate.
Qed.

(** The value getRSSI() is to return, and whether an AT+CWJAP? is unanswered. *)
Record rslogE := mkRslogE { rE_value : Z; rE_asked : bool }.
Definition rssiE_act (P : plat) (acc : rslogE) (a : act) : rslogE :=
  match a with
  | aCommand cmd _ => if same cmd (bs "AT+CWJAP?" ++ [CR; LF]) then mkRslogE INT16_MAX true else mkRslogE (rE_value acc) false
  | aLine _ L => if rE_asked acc && (prefixb (bs "+CWJAP:") L || prefixb (bs "No AP") L) then mkRslogE (se_rssi_text P L (rE_value acc)) false else acc
  | aReset _ => mkRslogE (rE_value acc) false
  | _ => acc
  end.
Definition rssiE_call (acc : rslogE) (e : ent) : rslogE :=
  match e_op e with OpRequestRSSI => mkRslogE INT16_MAX (rE_asked acc) | OpResetStates => mkRslogE 99%Z false | _ => acc end.
Definition rssiE_log (P : plat) (tr : list ent) : rslogE := fold_left (reading (rssiE_act P) rssiE_call) tr (mkRslogE 99%Z false).

Definition se_signal (acc : rslogE) (d : dv) : Prop := rssi d = rE_value acc /\ (rst d = RERssi <-> rE_asked acc = true).

Lemma error_not_rssi : forall L, se_is_error L = true -> prefixb (bs "+CWJAP:") L || prefixb (bs "No AP") L = false.
Proof.
  intros L H. apply orb_true_iff in H as [H|H]; apply orb_false_iff; split; (apply (se_prefix_clash _ _ _ H); reflexivity).
Qed.

Theorem se_rssi_history : forall P d0 tr d, se_fresh False d0 -> se_hist P d0 tr d -> se_signal (rssiE_log P tr) d.
Proof.
  intros P d0 tr d HF Hh. unfold rssiE_log.
  apply (call_ghost _ _ _ _ _ (se_contract False P) _ se_signal (rssiE_act P) rssiE_call (fun _ => True)) with (d := d0); auto.
  - intros a d1 q d2 [K1 K2] _ _ (_ & R2 & _ & _ & _ & R6). unfold se_signal. cbn [rssiE_act rE_value rE_asked]. rewrite R2, R6. split; [exact K1|]. split; discriminate.
  - intros a d1 r d2 b K Hl ((_ & _ & Hnp) & _ & Hx). pose proof K as [K1 K2]. destruct b as [q|tk|tk1 tk2|tk line| |cmd q|n q|q|tk]; cbn [rssiE_act]; try (inversion Hl; fail);
      try (destruct Hx as (_ & X1 & _ & _ & X2 & _); unfold se_signal; rewrite X1, X2; exact K).
    assert (Hwl : se_whole d1 line) by (inversion Hl; assumption).
    destruct Hx as [_ Hx]. apply se_line_effect in Hx; [|exact Hnp|exact Hwl]. destruct Hx as [(_ & _ & Hx) _].
    destruct (se_is_error line) eqn:Ee.
    { rewrite (error_not_rssi _ Ee), andb_false_r. destruct Hx as (X1 & _ & X2 & _). unfold se_signal. rewrite X1, X2. exact K. }
    destruct Hx as (_ & X1 & X2 & _). unfold se_takes_rssi in X1, X2. unfold se_signal.
    destruct (rE_asked a) eqn:Ea.
    + assert (Er : rst d1 = RERssi) by (apply K2; reflexivity). rewrite Er in X1, X2. cbn [andb].
      destruct (prefixb (bs "+CWJAP:") line || prefixb (bs "No AP") line) eqn:Ep.
      * cbn [rE_value rE_asked]. rewrite orb_true_r in X1. cbn [orb] in X1. rewrite X1, X2, K1. split; [reflexivity|]. split; discriminate.
      * unfold se_data, se_header, se_takes_mac in X1. rewrite Er in X1. rewrite andb_false_r in X1. cbn [orb] in X1. rewrite Ea, X1, X2. split; [exact K1|]. split; auto.
    + cbn [andb]. rewrite Ea. assert (Er : rst d1 <> RERssi) by (intro E; apply K2 in E; discriminate E).
      split; [destruct (rst d1); try contradiction; rewrite X2; exact K1|]. split; [|discriminate]. intro E. exfalso. rewrite E in X1.
      destruct (_ || _ || _) in X1; congruence.
  - intros e a d1 d2 b _ K Hl Hx. destruct (se_out_effect _ _ _ _ Hl Hx) as (E1 & _ & E2). pose proof K as [K1 K2].
    destruct b as [q|tk|tk1 tk2|tk line| |cmd q|n q|q|tk]; cbn [rssiE_act]; try (inversion Hl; fail); try (unfold se_signal; rewrite E1, E2; exact K).
    + pose proof (se_says_rssi _ _ _ _ E2) as Hc. unfold se_signal. destruct (same cmd _) eqn:Es; cbn [rE_value rE_asked].
      * rewrite E1. split; [|split; auto; intros _; apply Hc; reflexivity].
        destruct E2 as [(E2 & _)|E2]; [exact E2|]. exfalso.
        destruct E2 as [(_ & _ & (_ & _ & E3))|[(c & _ & _ & (_ & _ & E3))|(_ & (_ & _ & E3) & _)]];
          rewrite (proj1 Hc eq_refl) in E3; discriminate E3.
      * rewrite E1. split; [exact K1|]. split; [intro E; apply Hc in E; discriminate E|discriminate].
    + unfold se_signal. rewrite E1, E2. split; [exact K1|]. split; [discriminate|]. intro F. exfalso. apply K2 in F.
      inversion Hl as [| | |? Ha|]; subst. apply Ha. right. unfold se_shape, sh_ok. rewrite F. reflexivity.
    + unfold se_signal. rewrite E1, E2. split; [exact K1|]. split; [discriminate|]. intro F. exfalso. apply K2 in F.
      inversion Hl as [| | | |? Ha]; subst. apply Ha. right. unfold se_shape, sh_ok. rewrite F. reflexivity.
  - intros e a d1 d2 _ _ K Hn Hcr (_ & _ & _ & _ & _ & F & _) _ E2 _ _. pose proof K as [K1 K2]. unfold se_signal, rssiE_call. rewrite E2.
    destruct F as [F|[F1 F2]]; [|rewrite F1; cbn [rE_value rE_asked]; rewrite F2; split; [reflexivity|exact K2]].
    rewrite F. destruct (e_op e) eqn:Eo; try exact K; try discriminate Hn.
    destruct Hcr as [_ Hcr]. injection Hcr as _ <-. cbn [rE_value rE_asked]. split; [exact (eq_sym F)|exact K2].
  - intros e a d1 d2 HI _ Eo _ E. unfold rssiE_call. rewrite Eo. destruct (se_reset_exact False P d1 d2 HI E) as (y & -> & _). unfold se_signal. cbn. split; [reflexivity|]. split; discriminate.
  - apply Forall_forall. auto.
  - destruct HF as (_ & _ & _ & F2 & _ & _ & _ & _ & _ & _ & _ & _ & _ & _ & _ & F3 & _). unfold se_signal. rewrite F2, F3. cbn. split; [reflexivity|]. split; discriminate.
Qed.

(** ** MAC address *)

(** Whether requestMac() was called, and the lines read since the last call. *)
Record maclog := mkMaclog { ml_req : bool; ml_lines : list bytes }.
Definition mac_act (acc : maclog) (a : act) : maclog :=
  match a with aLine _ L => mkMaclog (ml_req acc) (ml_lines acc ++ [L]) | _ => acc end.
Definition macE_call (acc : maclog) (e : ent) : maclog :=
  match e_op e with OpX RequestMac => mkMaclog true [] | _ => acc end.
Definition macE_log (tr : list ent) : maclog := fold_left (reading mac_act macE_call) tr (mkMaclog false []).
(** The text of an answer read since the last request. *)
Definition mac_answer (acc : maclog) (s : bytes) : Prop :=
  exists L, In L (ml_lines acc) /\ prefixb (bs "+CIPSTAMAC:" ++ [DQ]) L = true /\ s = se_mac_text L.

Definition se_macstate (acc : maclog) (d : dv) : Prop :=
  ml_req acc = true -> nth_error (emac (ext d)) 0 = Some NUL \/ mac_answer acc (str_body (emac (ext d))).

Lemma mac_answer_more : forall acc L s, mac_answer acc s -> mac_answer (mkMaclog (ml_req acc) (ml_lines acc ++ [L])) s.
Proof. intros acc L s (L' & H1 & H2). exists L'. split; [cbn; apply in_or_app; left; exact H1|exact H2]. Qed.

Theorem se_mac_history : forall P d0 tr d, se_fresh False d0 -> se_hist P d0 tr d -> se_macstate (macE_log tr) d.
Proof.
  intros P d0 tr d HF Hh. unfold macE_log.
  apply (call_ghost _ _ _ _ _ (se_contract False P) _ se_macstate mac_act macE_call (fun _ => True)) with (d := d0); auto.
  - intros a d1 q d2 K _ _ (_ & _ & _ & _ & R5 & _). cbn [mac_act]. unfold se_macstate. rewrite R5. exact K.
  - intros a d1 r d2 b K Hl ((_ & _ & Hnp) & _ & Hx). destruct b as [q|tk|tk1 tk2|tk L| |cmd q|n q|q|tk]; cbn [mac_act]; try (inversion Hl; fail);
      try (destruct Hx as (_ & _ & _ & _ & _ & X & _); unfold se_macstate; rewrite X; exact K).
    assert (Hwl : se_whole d1 L) by (inversion Hl; assumption).
    destruct Hx as [_ Hx]. apply se_line_effect in Hx; [|exact Hnp|exact Hwl]. destruct Hx as [(_ & _ & Hx) _].
    assert (Keep : emac (ext d2) = emac (ext d1) -> se_macstate (mkMaclog (ml_req a) (ml_lines a ++ [L])) d2).
    { intros E H. rewrite E. destruct (K H) as [K1|K1]; [left; exact K1|right; apply mac_answer_more; exact K1]. }
    destruct (se_is_error L); [apply Keep; apply Hx|]. destruct Hx as (_ & _ & _ & X & _).
    destruct (se_takes_mac d1 L) eqn:Et; [|apply Keep; exact X].
    intros _. right. exists L. split; [cbn; apply in_or_app; right; left; reflexivity|]. split; [|exact X].
    unfold se_takes_mac in Et. destruct (rst d1); try discriminate Et; exact Et.
  - intros e a d1 d2 b _ K Hl Hx. destruct (se_out_effect _ _ _ _ Hl Hx) as (_ & (Q & _) & _).
    assert (G : se_macstate a d2).
    { intro H. destruct Q as [->|(-> & Hr & _)]; [exact (K H)|]. left. cbn [emac].
      unfold se_mac_request in Hr. destruct (emac (ext d1)) as [|c0 [|c1 t]]; try discriminate Hr.
      apply andb_true_iff in Hr as [Hr _]. apply andb_true_iff in Hr as [Hr _]. apply Ascii.eqb_eq in Hr. subst c0. reflexivity. }
    destruct b; try exact G; inversion Hl.
  - intros e a d1 d2 _ HI K Hn Hcr (_ & _ & _ & _ & F & _) _ _ _ _. unfold macE_call.
    assert (Keep : ext d2 = ext d1 -> se_macstate a d2) by (intros E; unfold se_macstate; rewrite E; exact K).
    destruct (e_op e) as [| | | | | | | | | | | | | | | | | |x] eqn:Eo; try discriminate Hn; try (destruct F as [F|[x F]]; [exact (Keep F)|discriminate F]).
    destruct Hcr as (_ & _ & Hc). cbn [drv_x se_driver] in Hc. destruct x; cbn [se_x] in Hc.
    + injection Hc as _ <-. exact K.
    + injection Hc as _ <-. exact K.
    + intros _. left. assert (Hl : length (emac (ext d1)) = 18) by apply HI. unfold se_request_mac in Hc.
      destruct (emac (ext d1)) as [|c0 [|c1 t]]; try discriminate Hl. cbn in Hc. injection Hc as _ <-. reflexivity.
    + destruct (se_get_mac d1); [|discriminate]. cbn [bind] in Hc. injection Hc as _ <-. exact K.
  - intros e a d1 d2 HI K Eo _ E. unfold macE_call. rewrite Eo. destruct (se_reset_exact False P d1 d2 HI E) as (y & -> & _). exact K.
  - apply Forall_forall. auto.
  - discriminate.
Qed.

(** What getMac() returns once requestMac() was called. *)
Theorem se_mac_answer : forall P d0 tr d e d' s, se_built d0 -> se_hist P d0 tr d -> se_step P d e d' ->
  e_op e = OpX GetMac -> e_out e = DStr (Some s) -> ml_req (macE_log tr) = true -> mac_answer (macE_log tr) s.
Proof.
  intros P d0 tr d e d' s HB Hh Hs Eo Eout Hn. pose proof (se_mac_history P d0 tr d (se_built_fresh _ HB) Hh Hn) as K.
  destruct (se_cases P d e d' Hs) as (d1 & _ & HA & [(oo & E & _)|(_ & _ & _ & Hc)]); [congruence|].
  rewrite Eo, Eout in Hc. destruct Hc as (_ & _ & Hc). cbn [drv_x se_driver se_x] in Hc.
  destruct (se_get_mac (during (e_sch e) d)) as [r|] eqn:Eg; [|discriminate]. cbn [bind] in Hc. injection Hc as Er _. subst r.
  unfold se_get_mac in Eg. destruct (wait _); [discriminate|]. change (ext (during (e_sch e) d)) with (ext d) in Eg.
  unfold rd in Eg. destruct (nth_error (emac (ext d)) 0) as [c0|] eqn:E0; [|discriminate]. cbn [bind] in Eg. unfold aeqb in Eg.
  destruct (Ascii.eqb_spec c0 NUL) as [->|Hne]; [discriminate|].
  destruct K as [K|K]; [congruence|].
  destruct (cstring (emac (ext d))) as [s'|] eqn:Es; [|discriminate]. cbn [bind] in Eg. injection Eg as ->.
  assert (Hb : str_body (emac (ext d)) = s).
  { clear - Es. revert s Es. induction (emac (ext d)) as [|c l IH]; intros s Es; [discriminate|]. cbn in Es |- *. unfold aeqb in Es. change "000"%char with NUL in *.
    destruct (Ascii.eqb c NUL); [congruence|]. destruct (cstring l); [|discriminate]. cbn in Es. injection Es as <-. f_equal. apply IH. reflexivity. }
  rewrite <- Hb. exact K.
Qed.

(** With a signed char the query is never sent. *)
Theorem se_mac_signed : forall P d e d' cmd q, char_signed P = true -> se_step P d e d' -> fLock (fl d) = false ->
  In (aCommand cmd q) (e_acts e) -> prefixb (bs "AT+CIPSTAMAC?") cmd = false.
Proof.
  intros P d e d' cmd q HP Hs HL Hin. destruct (se_output_at P d e d' _ Hs HL Hin I) as (d2 & d1 & _ & Ho & Hox & _).
  destruct (se_out_effect _ _ _ _ Ho Hox) as (_ & _ & Hsay).
  destruct Hsay as [(_ & -> & _)|[(Hi & _)|[(c & Hc & -> & _)|(_ & _ & n & -> & _)]]]; try reflexivity.
  - exfalso. unfold se_mac_request in Hi. rewrite HP in Hi. destruct (emac (ext d2)) as [|c0 [|c1 t]]; try discriminate Hi. cbn [negb] in Hi. rewrite andb_false_r in Hi. discriminate Hi.
  - unfold se_command in Hc. destruct (sst d2); try discriminate Hc; apply some_eq in Hc; subst c; reflexivity.
Qed.

(** With an unsigned one a request stays pending until the query is sent or an
    address is read. *)
Theorem se_mac_kept : forall P d e d', se_step P d e d' -> fLock (fl d) = false -> se_mac_request P (emac (ext d)) = true ->
  se_mac_request P (emac (ext d')) = true \/ (exists q, In (aCommand (bs "AT+CIPSTAMAC?" ++ [CR; LF]) q) (e_acts e)) \/
  (exists tk L, In (aLine tk L) (e_acts e) /\ prefixb (bs "+CIPSTAMAC:" ++ [DQ]) L = true).
Proof.
  intros P d e d' Hs HL Hm. destruct (se_cases P d e d' Hs) as (dx & Ed & HA & [(oo & Eo & _)|(Hn & Ea & Hr & Hc)]).
  - destruct (se_parts P d e d' oo Hs Eo HL) as (d1 & Hd & [(E & _ & E1)|[(_ & _ & q & E & _ & (_ & _ & _ & _ & R5 & _))|(_ & _ & a & d2 & r & Hi & Hx & Hr)]]).
    { left. rewrite Hd, E1. destruct oo; exact Hm. }
    { left. rewrite Hd. cbn [ext set_io]. rewrite R5. exact Hm. }
    assert (Hin : In a (e_acts e)) by (destruct Hr as [(E & _)|(b & _ & E & _)]; rewrite E; left; reflexivity).
    assert (G : emac (ext d2) = emac (ext d) \/ exists tk L, In (aLine tk L) (e_acts e) /\ prefixb (bs "+CIPSTAMAC:" ++ [DQ]) L = true).
    { destruct Hx as ((_ & _ & Hnp) & _ & Hx). destruct a as [q|tk|tk1 tk2|tk L| |cmd q|n q|q|tk]; try (inversion Hi; fail); try (left; destruct Hx as (_ & _ & _ & _ & _ & Hx & _); rewrite Hx; reflexivity).
      destruct Hx as [_ Hx]. assert (Hwl : se_whole (during (e_sch e) d) L) by (inversion Hi; assumption). apply se_line_effect in Hx; [|exact Hnp|exact Hwl]. destruct Hx as [(_ & _ & Hx) _].
      destruct (se_is_error L); [left; apply Hx|]. destruct Hx as (_ & _ & _ & X & _). destruct (se_takes_mac _ L) eqn:Et; [|left; exact X].
      right. exists tk, L. split; [exact Hin|]. unfold se_takes_mac in Et. destruct (rst _); try discriminate Et. exact Et. }
    destruct G as [G|G]; [|right; right; exact G].
    destruct Hr as [(_ & -> & _)|(b & _ & E & Ho & Hox)]; [left; rewrite Hd; cbn [ext set_io]; rewrite G; exact Hm|].
    destruct (se_out_effect _ _ _ _ Ho Hox) as (_ & ([Q|(Q & _ & Q3)] & _) & Hsay).
    + left. rewrite Hd. cbn [ext set_io]. rewrite Q, G. exact Hm.
    + right. left.
      destruct b as [q|tk|tk1 tk2|tk L| |cmd q|n q|q|tk]; try (inversion Ho; fail).
      * exfalso. destruct Hox as (_ & _ & Hox). assert (d1 = d2 \/ rst d2 = REOk) as [->|E0] by (unfold se_output in Hox; destruct (wait d2); [left; congruence|]; destruct (rst d2); auto; left; cbn in Hox; congruence).
        -- assert (Q' : emac (ext d2) = list_set (emac (ext d2)) 1 NUL) by exact (f_equal emac Q). rewrite G in Q'. clear - Q' Hm.
           unfold se_mac_request in Hm. destruct (emac (ext d)) as [|c0 [|c1 t]]; try discriminate Hm. cbn in Q'. injection Q' as ->. cbn in Hm. rewrite andb_false_r in Hm. discriminate Hm.
        -- congruence.
      * exists q. rewrite E. right. left.
        destruct Hsay as [(_ & _ & (_ & _ & X))|[(_ & -> & _)|[(c & _ & _ & (_ & _ & X))|(_ & (_ & _ & X) & _)]]]; try congruence.
      * exfalso. assert (rst d2 = REOk) by (apply se_not_waiting; inversion Ho; assumption). congruence.
      * congruence.
      * congruence.
  - left. rewrite Ed. cbn [ext set_io].
    destruct Hr as [(_ & _ & _ & _ & _ & _ & _ & _ & _ & _ & _ & _ & _ & _ & _ & F)|[Eo _]].
    + destruct F as (_ & _ & _ & _ & [F|[x Eo]] & _); [rewrite F; exact Hm|]. rewrite Eo in Hc.
      destruct Hc as (_ & _ & Hc). cbn [drv_x se_driver] in Hc. destruct x; cbn [se_x] in Hc.
      * injection Hc as _ <-. exact Hm.
      * injection Hc as _ <-. exact Hm.
      * unfold se_request_mac in Hc. change (ext (during (e_sch e) d)) with (ext d) in Hc. unfold se_mac_request in *. destruct (emac (ext d)) as [|c0 [|c1 t]]; try discriminate Hm. cbn in Hc. injection Hc as _ <-.
        cbn. destruct (char_signed P); [cbn in Hm; rewrite andb_false_r in Hm; discriminate Hm|reflexivity].
      * destruct (se_get_mac _); [|discriminate]. cbn [bind] in Hc. injection Hc as _ <-. exact Hm.
    + rewrite Eo in Hc. destruct Hc as (_ & _ & _ & Hc). destruct (se_reset_exact False P _ _ HA Hc) as (y & -> & _). exact Hm.
Qed.

(** The run() that finds the driver at leisure, with room for a command and no
    new line, sends it. *)
Theorem se_mac_sent : forall P d e d' oo, se_step P d e d' -> e_op e = OpRun oo -> fLock (fl d) = false -> se_mac_request P (emac (ext d)) = true ->
  isopen d = true -> fReset (fl d) = false -> wait d = None -> rst d = REOk -> rssi d <> INT16_MAX -> fLine (fl d) = true ->
  e_sch e = [] -> txav (io d) + 20 <= txsz (io d) -> (forall tk L, ~ In (aLine tk L) (e_acts e)) ->
  exists q, In (aCommand (bs "AT+CIPSTAMAC?" ++ [CR; LF]) q) (e_acts e).
Proof.
  intros P d e d' oo Hs Eo HL Hm H1 H2 H3 H4 H5 H6 He Ht Hn.
  destruct (se_parts P d e d' oo Hs Eo HL) as (d1 & Hd & [(_ & E & _)|[(_ & E & _)|(_ & _ & a & d2 & r & Hi & ((_ & _ & Hnp) & _ & Hx) & Hr)]]); [congruence..|].
  assert (Htx : txav (io d2) <= txav (io d)) by exact (ilab_tx (se_shape P) _ _ _ _ Hi).
  destruct (ilab_io (se_shape P) _ _ _ _ Hi) as (ev & Hst & _).
  assert (Hna : forall tk L, a <> aLine tk L) by (intros tk L ->; apply (Hn tk L); destruct Hr as [[-> _]|(b & _ & -> & _)]; left; reflexivity).
  assert (Hs0 : sched (io (during (e_sch e) d)) = []) by (cbn; exact He).
  destruct Hr as [(_ & _ & ->)|(b & _ & Ea & Hol & Hox)]; [exfalso; inversion Hi; subst; try discriminate; eapply Hna; reflexivity|].
  assert (Hsame : se_same (during (e_sch e) d) d2) by (destruct a; try exact Hx; exfalso; eapply Hna; reflexivity).
  assert (Hfl : fLine (fl d2) = true) by (inversion Hi; subst; repeat match goal with H : fl _ = fl _ |- _ => rewrite H end; try exact H6; first [match goal with H : fl d2 = _ \/ fl d2 = _ |- _ => destruct H as [->| ->]; [exact H6|reflexivity] end|exfalso; eapply Hna; reflexivity]).
  destruct Hsame as (S1 & S2 & _ & S4 & S5 & S6 & _). cbn [during set_io sst rst wait rssi ext] in S1, S2, S4, S5, S6.
  pose proof Hox as (HI & _ & Eq). destruct HI as ((Hw & _) & Hcm).
  assert (Hrst : rst d1 = REReqMac).
  { assert (Wp : wp True (se_output P d2) (fun x => rst x = REReqMac)); [|rewrite Eq in Wp; exact Wp].
    unfold se_output. rewrite S4, H3, S2, H4. cbn [re_ok negb]. unfold d_space. destruct (s_space_q (io d2) Hw) as (y & E1 & Q). rewrite E1. cbn [bind].
    destruct (Nat.ltb_spec (txsz y - txav y) 20) as [Hlt|Hge].
    { exfalso. apply quiet_ioeff in Q. pose proof (ioeff_av _ _ _ _ Q) as [_ A]. pose proof (ioeff_txsz _ _ _ _ Q). cbn [length] in A.
      pose proof (sstep_txsz _ _ _ Hst) as T. change (txsz (io (during (e_sch e) d))) with (txsz (io d)) in T. lia. }
    change (rssi (set_io y d2)) with (rssi d2). rewrite S5. destruct (Z.eqb_spec (rssi d) INT16_MAX); [contradiction|]. cbn [andb].
    unfold se_send_mac. change (ext (set_io y d2)) with (ext d2). change (fl (set_io y d2)) with (fl d2). rewrite S6, Hfl.
    unfold se_mac_request in Hm. destruct (emac (ext d)) as [|c0 [|c1 t]]; try discriminate Hm. cbn [rd nth_error bind wr].
    apply andb_true_iff in Hm as [Hm1 Hm2]. apply andb_true_iff in Hm1 as [Hm0 Hm1]. unfold char_is_ff, aeqb. rewrite Hm0, Hm1, Hm2. cbn [andb]. unfold wr. cbn [nth_error bind list_set].
    assert (Hwy : serial_wf (ser y)) by (apply quiet_ioeff in Q; destruct (ioeff_ev _ _ _ _ Q) as (ev2 & T & _); apply T).
    unfold at_send_command. do 4 apply wp_bind. apply wp_w_str; [exact Hwy|]. intros y3 (p & W & _). apply wp_w_str; [|intros; cbn; reflexivity].
    destruct (ioeff_ev _ _ _ _ W) as (ev3 & T & _). apply T. }
  assert (S2' : rst d2 = REOk) by congruence.
  destruct (se_out_effect _ _ _ _ Hol Hox) as (_ & _ & Hsay). rewrite Ea.
  destruct b as [q|tk|tk1 tk2|tk L| |cmd q|n q|q|tk]; try (inversion Hol; fail); try congruence.
  exists q. right. left. destruct Hsay as [(_ & _ & (_ & _ & X))|[(_ & -> & _)|[(c & _ & _ & (_ & _ & X))|(_ & (_ & _ & X) & _)]]]; try congruence.
Qed.
