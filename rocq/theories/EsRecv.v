(** Received data in histories of the Espressif driver. *)
From Coq Require Import String Ascii ZArith List Bool Arith Lia ZifyBool ZifyNat.
From Verif Require Import Base QueueSpec LineSpec SerialSpec Ring RingProofs LineRing LineRingProofs Serial SerialProofs
  SerStep TaskMacros CStr CStrProofs Dev DevProofs SimDev SimProofs SimSpec SimParse SimLog Sym DrvStep DrvCommon DrvRun DrvHist DrvActs DrvRecv
  Espressif EsSpec EsFill EsProofs EsCtl EsCtlIn EsRun AtLine EsHist EsThms EsMore EsLine EsReq EsRest.
Import ListNotations.
Local Open Scope nat_scope.
Ltac Zify.zify_post_hook ::= Z.div_mod_to_equations.
Local Notation dv := (dev essend esreply espx).
Local Notation ent := (@entry esop).

(** ** Any type of connection *)

(** [el_ask]: AT+CIPRECVDATA was not answered; [el_due]: the bytes announced and
    not read yet; [el_ok]: every number announced - by a reply, or by a notice if
    the connection is not a TCP connection - fitted the free space of the read
    buffer of [N] bytes; [el_in], [el_out]: the payload read from the port and the
    bytes read() delivered, since the last resetStates(). *)
Record elog : Type := mkElog { el_ask : bool; el_due : Z; el_ok : bool; el_in : bytes; el_out : bytes; el_type : option Z }.
Definition el_zero (t : option Z) : elog := mkElog false 0 true [] [] t.
Definition el_announce (N : nat) (ask : bool) (k : Z) (acc : elog) : elog :=
  mkElog ask (el_due acc + k) (el_ok acc && (0 <=? k)%Z && (el_due acc + k + Z.of_nat (length (el_in acc)) <=? Z.of_nat N + Z.of_nat (length (el_out acc)))%Z)
    (el_in acc) (el_out acc) (el_type acc).
Definition el_udp (t : option Z) : bool := match t with Some z => negb (z =? TCP)%Z | None => true end.
Definition el_act (P : plat) (N : nat) (acc : elog) (a : act) : elog :=
  match a with
  | aCommand cmd _ => mkElog (prefixb (bs "AT+CIPRECVDATA=") cmd) (el_due acc) (el_ok acc) (el_in acc) (el_out acc) (el_type acc)
  | aLine _ L =>
      if el_ask acc && se_payload L then el_announce N false (i32 (number P (skipn 13 L))) acc
      else if prefixb (bs "+IPD") L && el_udp (el_type acc) then el_announce N (el_ask acc) (i32 (number P (skipn 5 L))) acc
      else acc
  | aReceive tk => mkElog (el_ask acc) 0 (el_ok acc) (el_in acc ++ tk) (el_out acc) (el_type acc)
  | aReset _ => mkElog false 0 (el_ok acc) (el_in acc) (el_out acc) (el_type acc)
  | _ => acc
  end.
Definition el_call (acc : elog) (e : ent) : elog :=
  match e_op e with
  | OpSetHostPort _ _ t => mkElog (el_ask acc) (el_due acc) (el_ok acc) (el_in acc) (el_out acc) (Some t)
  | OpResetStates => el_zero (el_type acc)
  | _ => mkElog (el_ask acc) (el_due acc) (el_ok acc) (el_in acc) (el_out acc ++ delivered e) (el_type acc)
  end.
Definition el_log (P : plat) (N : nat) (tr : list ent) : elog := fold_left (reading (el_act P N) el_call) tr (el_zero None).

Definition el_fits (N : nat) (acc : elog) (d : dv) : Prop :=
  (el_ask acc = true <-> rst d = REWaitCiprecvdata) /\ se_typed (el_type acc) d /\ rsize (rbuf d) = N /\ (0 <= toRead d)%Z /\
  (el_ok acc = true -> ring_ok (rbuf d) /\ el_in acc = el_out acc ++ contents (rbuf d) /\
    (toRead d <= el_due acc)%Z /\ (Z.of_nat (avail (rbuf d)) + el_due acc <= Z.of_nat N)%Z).

Lemma u64_le : forall x, (0 <= x)%Z -> (u64 x <= x)%Z.
Proof. intros x H. unfold u64. apply Z.mod_le; [exact H|reflexivity]. Qed.
Lemma u64_nonneg : forall x, (0 <= u64 x)%Z.
Proof. intro x. unfold u64. apply Z.mod_pos_bound. reflexivity. Qed.

Lemma el_fits_announce : forall N a d d' ask k, el_fits N a d -> rbuf d' = rbuf d -> typ d' = typ d -> (ask = true <-> rst d' = REWaitCiprecvdata) ->
  toRead d' = u64 (toRead d + k) \/ toRead d' = toRead d -> el_fits N (el_announce N ask k a) d'.
Proof.
  intros N a d d' ask k (K1 & K2 & K3 & K4 & K5) E1 E2 E3 E4. unfold el_fits, el_announce, se_typed. cbn [el_ask el_due el_ok el_in el_out el_type]. rewrite E1, E2.
  splits; auto; try apply E3; try (apply K2; fail).
  - destruct E4 as [->| ->]; [apply u64_nonneg|exact K4].
  - intro H. apply andb_true_iff in H as [H H2]. apply andb_true_iff in H as [H H1].
    destruct (K5 H) as (A1 & A2 & A3 & A4). splits; auto.
    + destruct E4 as [->| ->]; [pose proof (u64_le (toRead d + k)); lia|lia].
    + pose proof (f_equal (@length _) A2) as L. rewrite app_length in L. rewrite contents_length in L by apply A1. lia.
Qed.

Theorem se_received_any : forall P d0 tr d, se_fresh False d0 -> se_hist P d0 tr d -> el_fits (rsize (rbuf d0)) (el_log P (rsize (rbuf d0)) tr) d.
Proof.
  intros P d0 tr d HF Hh. unfold el_log. set (N := rsize (rbuf d0)).
  pose proof HF as (_ & _ & _ & F2 & _ & _ & _ & _ & F5 & _ & F6 & _ & _ & F3 & _).
  apply (hist_ghost _ _ _ _ _ (se_contract False P) _ (el_fits N) (el_act P N) el_call (fun _ => True)) with (d := d0); auto.
  - (* reset *)
    intros a d1 q d2 (K1 & K2 & K3 & K4 & K5) _ (_ & _ & (_ & R1 & _ & Kt & _) & _ & _ & R2 & _) (_ & R3 & _).
    unfold el_fits, se_typed. cbn [el_act el_ask el_due el_ok el_in el_out el_type]. rewrite R1, R2, R3, Kt. splits; auto; try (split; discriminate); try lia.
    intro E. destruct (K5 E) as (A1 & A2 & A3 & A4). pose proof (ok_avail _ A1). splits; auto; lia.
  - (* reading *)
    intros a d1 r d2 b K Hl ((_ & _ & Hnp) & _ & Hx). assert (Hk : keep d1 d2) by (inversion Hl; assumption). destruct Hk as (_ & Hk & _ & Kt & _).
    destruct b as [q|tk|tk1 tk2|tk L| |cmd q|n q|q|tk]; try (inversion Hl; fail).
    + destruct Hx as (_ & X & _). cbn [el_act]. inversion Hl. unfold el_fits, se_typed in *. rewrite Hk, Kt, X. replace (toRead d2) with (toRead d1) by congruence. exact K.
    + destruct Hx as (_ & X & _). cbn [el_act]. inversion Hl. destruct K as (K1 & K2 & K3 & K4 & K5). unfold el_fits, se_typed. rewrite Hk, Kt, X. splits; auto.
      * match goal with H : toRead d2 = _ |- _ => rewrite H end. lia.
      * intro E. destruct (K5 E) as (A1 & A2 & A3 & A4). splits; auto. match goal with H : toRead d2 = _ |- _ => rewrite H end. lia.
    + assert (Hwl : se_whole d1 L) by (inversion Hl; assumption).
      destruct Hx as [_ Hx]. apply se_line_effect in Hx; [|exact Hnp|exact Hwl]. destruct Hx as [(_ & _ & Hx) _].
      assert (Hpc : se_payload L = true -> prefixb (bs "+CIPRECVDATA") L = true) by (unfold se_payload, se_data; intro H; apply andb_true_iff in H as [_ H]; exact (se_header_prefix _ _ H)).
      assert (Keep : toRead d2 = toRead d1 -> rst d2 = rst d1 \/ rst d1 <> REWaitCiprecvdata /\ rst d2 = REOk -> el_fits N a d2).
      { intros E1 E2. destruct K as (K1 & K2 & K3 & K4 & K5). unfold el_fits, se_typed. rewrite Hk, Kt, E1. splits; auto.
        destruct E2 as [->|[A B]]; [exact K1|]. rewrite B. split; [intro H; apply K1 in H; contradiction|discriminate]. }
      cbn [el_act]. destruct (se_is_error L) eqn:Er.
      * assert (Hp : se_payload L = false /\ prefixb (bs "+IPD") L = false).
        { unfold se_is_error in Er. split; [destruct (se_payload L); [|reflexivity]; specialize (Hpc eq_refl)|]; (apply orb_true_iff in Er as [Er|Er]; apply prefixb_spec in Er as [t ->]); reflexivity || discriminate Hpc. }
        destruct Hp as [-> ->]. rewrite andb_false_r. cbn [andb]. destruct Hx as (_ & _ & X1 & _ & _ & X2 & _). apply Keep; auto.
      * destruct Hx as (_ & X1 & _ & _ & X2 & _). pose proof K as (K1 & K2 & K3 & K4 & K5).
        destruct (el_ask a && se_payload L) eqn:Ep.
        -- apply andb_true_iff in Ep as [Ep1 Ep2]. assert (Ew : rst d1 = REWaitCiprecvdata) by (apply K1; exact Ep1).
           rewrite Ew in X1, X2. fold (se_payload L) in X1, X2. rewrite Ep2 in X1, X2. cbn [orb] in X1.
           apply el_fits_announce with (d := d1); auto. rewrite X1. split; discriminate.
        -- assert (Ed : se_data (rst d1) L = false).
           { destruct (el_ask a) eqn:Ea; [rewrite (proj1 K1 eq_refl); exact Ep|]. apply se_data_payload. intro E. apply K1 in E. discriminate E. }
           rewrite Ed in X1, X2. cbn [orb] in X1.
           assert (Hr : rst d2 = rst d1 \/ rst d1 <> REWaitCiprecvdata /\ rst d2 = REOk).
           { rewrite X1. unfold se_takes_rssi, se_takes_mac. destruct (rst d1); cbn [orb]; auto; rewrite ?orb_false_r.
             - destruct (prefixb mac_lit L); [right; split; [discriminate|reflexivity]|left; reflexivity].
             - destruct (prefixb (bs "+CWJAP:") L || prefixb (bs "No AP") L); [right; split; [discriminate|reflexivity]|left; reflexivity]. }
           assert (Hr2 : el_ask a = true <-> rst d2 = REWaitCiprecvdata).
           { destruct Hr as [->|[A B]]; [exact K1|]. rewrite B. split; [|discriminate]. intro H. apply K1 in H. contradiction. }
           destruct (prefixb (bs "+IPD") L) eqn:Ei; cbn [andb] in *; [|rewrite andb_false_r in X2; apply Keep; auto].
           destruct (el_udp (el_type a)) eqn:Eu.
           ++ apply el_fits_announce with (d := d1); auto. rewrite X2. destruct (_ && _); auto.
           ++ apply Keep; [|exact Hr]. rewrite X2. unfold el_udp in Eu. destruct (el_type a) as [z|] eqn:Et; [|discriminate Eu]. rewrite (K2 z eq_refl), Eu, andb_false_r. reflexivity.
  - (* sending *)
    intros e a d1 d2 b _ K Hl Hx _ _ _. destruct (se_out_effect _ _ _ _ Hl Hx) as (_ & _ & E2).
    assert (Kt : typ d2 = typ d1) by (inversion Hl; first [assumption | match goal with H : keep d1 d2 |- _ => apply H end]).
    pose proof K as (K1 & K2 & K3 & K4 & K5).
    destruct b as [q|tk|tk1 tk2|tk L| |cmd q|n q|q|tk]; try (inversion Hl; fail); cbn [el_act]; unfold el_fits, se_typed; cbn [el_ask el_due el_ok el_in el_out el_type]; rewrite Kt.
    + assert (E3 : rbuf d2 = rbuf d1 /\ toRead d2 = toRead d1) by (inversion Hl; split; [match goal with H : keep d1 d2 |- _ => apply H end|assumption]). destruct E3 as [-> ->]. rewrite E2. exact K.
    + assert (E3 : rbuf d2 = rbuf d1 /\ toRead d2 = toRead d1) by (inversion Hl; split; [match goal with H : keep d1 d2 |- _ => apply H end|assumption]). destruct E3 as [-> ->].
      splits; auto. exact (se_says_ask _ _ _ _ E2).
    + assert (E3 : rbuf d2 = rbuf d1 /\ toRead d2 = toRead d1) by (inversion Hl; split; [match goal with H : keep d1 d2 |- _ => apply H end|assumption]). destruct E3 as [-> ->]. rewrite E2. exact K.
    + assert (E3 : rbuf d2 = rbuf d1 /\ toRead d2 = toRead d1) by (inversion Hl; split; assumption). destruct E3 as [-> ->].
      assert (E3 : rst d1 = REOk) by (apply se_not_waiting; inversion Hl; assumption). rewrite E2, <- E3. exact K.
    + assert (E3 : rst d1 = REOk) by (apply se_not_waiting; inversion Hl; assumption). rewrite E2, <- E3.
      inversion Hl as [| | | |tk' Aw Hio Hlen Hpos Hwf Hsz Hring].
      match goal with H : toRead d2 = 0%Z |- _ => rewrite H end. rewrite Hsz. splits; auto; try lia; try apply K1.
      intro E. destruct (K5 E) as (A1 & A2 & A3 & A4). destruct Hring as [R1 R2]; [exact A1|lia|]. rewrite R2, A2, <- app_assoc. pose proof (ok_avail _ R1). splits; auto; try lia.
  - (* calls *)
    intros e a d1 d2 _ Hg HI K Hc Hn. pose proof K as (K1 & K2 & K3 & K4 & K5). destruct (call_delta _ _ _ _ _ (se_contract False P) e d1 d2 HI Hg Hc Hn) as [_ [Hr|[R _]]].
    + destruct Hr as (Hnr & _ & _ & T1 & _ & _ & _ & T3 & _ & _ & _ & _ & T4 & _ & T5 & (_ & _ & _ & _ & _ & _ & Hf & _)). unfold el_call.
      assert (G : typ d2 = typ d1 -> el_fits N (mkElog (el_ask a) (el_due a) (el_ok a) (el_in a) (el_out a ++ delivered e) (el_type a)) d2).
      { intro Et. unfold el_fits, se_typed. cbn [el_ask el_due el_ok el_in el_out el_type]. rewrite T1, T3, T4, Et. splits; auto; try apply K1.
        intro E. destruct (K5 E) as (A1 & A2 & A3 & A4). destruct (T5 A1) as [R6 R7]. rewrite A2, R7, <- app_assoc. splits; auto.
        pose proof (f_equal (@length _) R7) as Hl. rewrite app_length in Hl. rewrite !contents_length in Hl by first [apply R6 | apply A1]. lia. }
      destruct (e_op e) eqn:Eq; try discriminate Hnr; try (destruct Hf as [(Hf & _)|(x1 & x2 & x3 & Hf)]; [|discriminate Hf]; apply G; exact Hf).
      destruct Hc as [_ Hc]. cbn [d_call] in Hc. injection Hc as _ <-. unfold el_fits. cbn [el_ask el_due el_ok el_in el_out el_type]. splits; auto; try apply K1.
      intros z Ez. cbn. congruence.
    + pose proof Hc as Hc'. rewrite R in Hc'. destruct Hc' as (_ & _ & _ & Hc'). destruct (se_reset_exact False P d1 d2 HI Hc') as (y & -> & _).
      unfold el_call. rewrite R. unfold el_fits, el_zero. cbn [el_ask el_due el_ok el_in el_out el_type se_reseted rst rbuf toRead typ].
      pose proof (c_wf _ _ _ _ _ (se_contract False P) d1 HI) as (_ & Hrw & _). destruct (ring_flush_ok _ Hrw) as [G1 G2]. pose proof (ok_avail _ G1).
      splits; auto; try (split; discriminate); try lia. intros _. rewrite G2. splits; auto; try lia. cbn. lia.
  - apply Forall_forall. auto.
  - unfold el_fits, el_zero. cbn [el_ask el_due el_ok el_in el_out el_type]. rewrite F2, F3. split; [split; discriminate|]. split; [intros z Ez; discriminate Ez|]. split; [reflexivity|]. split; [lia|].
    intros _. rewrite F5. pose proof (ok_avail _ F6). subst N. splits; auto; lia.
Qed.

(** ** TCP connections *)

(** The number in AT+CIPRECVDATA=n and in its reply. *)
Definition rxE_req (P : plat) (cmd : bytes) : option Z :=
  if prefixb (bs "AT+CIPRECVDATA=") cmd then Some (number P (skipn 15 cmd)) else None.
Definition rxE_rep (P : plat) (L : bytes) : option Z :=
  if se_payload L then Some (i32 (number P (skipn 13 L))) else None.
Lemma rxE_req_dec : forall P n, (0 <= n < 2147483648)%Z -> rxE_req P (bs "AT+CIPRECVDATA=" ++ dec n ++ [CR; LF]) = Some n.
Proof.
  intros P n H. unfold rxE_req. change (skipn 15 (bs "AT+CIPRECVDATA=" ++ dec n ++ [CR; LF])) with (dec n ++ [CR; LF]).
  rewrite number_dec by (try assumption; reflexivity). reflexivity.
Qed.

Definition se_asks (r : esreply) : bool := match r with REWaitCiprecvdata => true | _ => false end.
(** Every setHostPort() asks for a TCP connection. *)
Definition tcp_only (e : ent) : Prop := forall h p t, e_op e = OpSetHostPort h p t -> t = TCP.

Definition se_tcp (acc : rlog) (d : dv) : Prop := typ d = TCP /\ se_tline d /\ r_fits se_asks acc d.

Lemma se_tline_fields : forall d d' : dv, toRead d' = toRead d -> sst d' = sst d -> fLine (fl d') = fLine (fl d) -> se_tline d -> se_tline d'.
Proof. intros d d' E1 E2 E3. unfold se_tline. rewrite E1, E2, E3. auto. Qed.
Lemma se_tline_zero : forall d : dv, toRead d = 0%Z -> se_tline d.
Proof. intros d E H. lia. Qed.

Theorem se_tcp_history : forall P d0 tr d, se_hist P d0 tr d -> Forall tcp_only tr -> forall acc, se_tcp acc d0 ->
  se_tcp (fold_left (reading (r_act (rxE_req P) (rxE_rep P)) r_call) tr acc) d.
Proof.
  intros P d0 tr d Hh HQ acc H0.
  assert (asks_ok : forall r, re_ok r = true -> se_asks r = false) by (intros r Hr; destruct r; reflexivity || discriminate).
  apply (hist_ghost _ _ _ _ _ (se_contract False P) _ se_tcp (r_act (rxE_req P) (rxE_rep P)) r_call tcp_only) with (d := d0); auto.
  - (* the port cannot be opened *)
    intros a d1 (K1 & K2 & K3). split; [exact K1|]. split; [|exact K3]. intro H. destruct (K2 H) as [K4 _]. split; [exact K4|]. right. reflexivity.
  - (* reset *)
    intros a d1 q d2 (K1 & K2 & K) _ (_ & _ & (_ & R1 & _ & Kt & _) & _ & _ & R2 & _ & _ & R3 & _) _. split; [congruence|]. split; [apply se_tline_zero; exact R2|].
    unfold r_fits in *. cbn [r_act r_ok r_in r_out r_ask].
    intro E. destruct (K E) as (A1 & A2 & A3 & _). rewrite R1, R2. pose proof (ok_avail _ A1). splits; auto; [lia|].
    rewrite (asks_ok _ R3). discriminate.
  - (* reading *)
    intros a d1 r d2 b (K1 & K2 & K) Hl ((HI & _ & Hnp) & Ht & Hx). assert (Hk : keep d1 d2) by (inversion Hl; assumption). destruct Hk as (_ & Hk & _ & Kt & _).
    split; [congruence|]. split; [exact (Ht K1 K2)|]. clear Ht.
    destruct b as [q|tk|tk1 tk2|tk L| |cmd q|n q|q|tk]; try (inversion Hl; fail).
    + destruct Hx as (_ & X & _). cbn [r_act]. inversion Hl. unfold r_fits in *. rewrite Hk, X. replace (toRead d2) with (toRead d1) by congruence. exact K.
    + destruct Hx as (_ & X & _). cbn [r_act]. inversion Hl. unfold r_fits in *. rewrite Hk, X. intro E. destruct (K E) as (A1 & A2 & A3 & A4).
      splits; auto. match goal with H : toRead d2 = _ |- _ => rewrite H end. lia.
    + assert (Hwl : se_whole d1 L) by (inversion Hl; assumption).
      assert (Hf : fLine (fl d1) = true) by (inversion Hl; assumption).
      assert (Hz : toRead d1 = 0%Z).
      { assert (HH : (0 <= toRead d1)%Z) by (clear - HI; destruct HI as ((_ & _ & _ & _ & _ & _ & _ & _ & _ & _ & H & _) & _); lia).
        destruct (Z.eq_dec (toRead d1) 0) as [E|E]; [exact E|]. destruct K2 as [K2 _]; [lia|]. congruence. }
      destruct Hx as [_ Hx]. apply se_line_effect in Hx; [|exact Hnp|exact Hwl]. destruct Hx as [(_ & _ & Hx) _].
      assert (Hpc : se_payload L = true -> prefixb (bs "+CIPRECVDATA") L = true) by (unfold se_payload, se_data; intro H; apply andb_true_iff in H as [_ H]; exact (se_header_prefix _ _ H)).
      assert (Hc : (exists k, se_asks (rst d1) = true /\ rxE_rep P L = Some k /\ se_asks (rst d2) = false /\ ((0 <= k)%Z -> toRead d2 = k)) \/
        (toRead d2 = toRead d1 /\ (se_asks (rst d2) = true -> se_asks (rst d1) = true /\ rxE_rep P L = None))).
      { unfold rxE_rep. destruct (se_is_error L) eqn:Er.
        - right. assert (Hp : se_payload L = false).
          { unfold se_is_error in Er. destruct (se_payload L); [|reflexivity]; specialize (Hpc eq_refl); (apply orb_true_iff in Er as [Er|Er]; apply prefixb_spec in Er as [t ->]); discriminate Hpc. }
          rewrite Hp. destruct Hx as (_ & _ & X1 & _ & _ & X2 & _). rewrite X1. split; [exact X2|]. auto.
        - destruct Hx as (_ & X1 & _ & _ & X2 & _). rewrite K1 in X2. cbn [Z.eqb TCP Pos.eqb negb] in X2. rewrite andb_false_r in X2. destruct (se_asks (rst d1)) eqn:Ea.
          + assert (Ew : rst d1 = REWaitCiprecvdata) by (destruct (rst d1); try discriminate Ea; reflexivity). rewrite Ew in X1, X2. fold (se_payload L) in X1, X2.
            destruct (se_payload L).
            * left. eexists. split; [reflexivity|]. split; [reflexivity|]. cbn [orb] in X1. rewrite X1. split; [reflexivity|]. intro Hk0. rewrite X2, Hz.
              pose proof (i32_lt (number P (skipn 13 L))) as Hb. unfold u64. rewrite Z.add_0_l. apply Z.mod_small. split; [exact Hk0|]. eapply Z.lt_trans; [exact Hb|reflexivity].
            * right. auto.
          + assert (Hnw : rst d1 <> REWaitCiprecvdata) by (intro E; rewrite E in Ea; discriminate Ea). rewrite (se_data_payload _ _ Hnw) in X1, X2.
            right. split; [exact X2|]. rewrite X1. destruct (_ || _ || _); [discriminate|]. rewrite Ea. discriminate. }
      destruct Hc as [(k & A1 & A2 & A3 & A4)|(A1 & A2)]; unfold r_fits in *; cbn [r_act]; rewrite Hk.
      * rewrite A2. destruct (r_ask a) as [n|] eqn:Ea; cbn [r_ok r_in r_out r_ask].
        -- intro E. apply andb_true_iff in E as [E E6]. apply andb_true_iff in E as [E E5]. destruct (K E) as (C1 & C2 & C3 & C4).
           destruct (C4 A1) as (n' & B1 & B2). injection B1 as <-. splits; auto; [rewrite A4 by lia; lia|rewrite A3; discriminate].
        -- intro E. destruct (K E) as (C1 & C2 & C3 & C4). destruct (C4 A1) as (n' & B1 & _). discriminate.
      * rewrite A1. destruct (r_ask a) as [n|] eqn:Ea.
        -- destruct (rxE_rep P L) as [k|] eqn:Er; cbn [r_ok r_in r_out r_ask].
           ++ intro E. apply andb_true_iff in E as [E E6]. apply andb_true_iff in E as [E E5]. destruct (K E) as (C1 & C2 & C3 & C4). splits; auto.
              intro Q. destruct (A2 Q). discriminate.
           ++ intro E. rewrite Ea. destruct (K E) as (C1 & C2 & C3 & C4). splits; auto. intro Q. apply C4, A2, Q.
        -- intro E. rewrite Ea. destruct (K E) as (C1 & C2 & C3 & C4). splits; auto. intro Q. apply C4, A2, Q.
  - (* sending *)
    intros e a d1 d2 b _ (K1 & K2 & K) Hl Hx _ _ _. destruct (se_out_effect _ _ _ _ Hl Hx) as (_ & _ & E2).
    split; [rewrite <- K1; inversion Hl; first [assumption | match goal with H : keep d1 d2 |- _ => apply H end]|].
    split; [destruct Hx as (_ & (_ & _ & _ & _ & _ & _ & _ & _ & _ & Hx & _) & _); exact (Hx K1 K2)|].
    destruct b as [q|tk|tk1 tk2|tk L| |cmd q|n q|q|tk]; try (inversion Hl; fail); unfold r_fits in *; cbn [r_act r_ok r_in r_out r_ask].
    + assert (E3 : rbuf d2 = rbuf d1 /\ toRead d2 = toRead d1) by (inversion Hl; split; [match goal with H : keep d1 d2 |- _ => apply H end|assumption]). destruct E3 as [-> ->]. rewrite E2. exact K.
    + assert (E3 : rbuf d2 = rbuf d1 /\ toRead d2 = toRead d1) by (inversion Hl; split; [match goal with H : keep d1 d2 |- _ => apply H end|assumption]). destruct E3 as [-> ->].
      intro E. destruct (K E) as (C1 & C2 & C3 & C4). splits; auto.
      intro Q. destruct E2 as [(_ & -> & (_ & _ & X))|[(Hi & -> & (_ & _ & X))|[(c & Hs & -> & (_ & _ & X))|(_ & (_ & _ & X) & n & -> & N1 & N2 & N3 & N4 & _)]]]; try (rewrite X in Q; discriminate).
      exists n. split; [apply rxE_req_dec; lia|]. unfold ring_space in *. pose proof (ok_avail _ C1). lia.
    + assert (E3 : rbuf d2 = rbuf d1 /\ toRead d2 = toRead d1) by (inversion Hl; split; [match goal with H : keep d1 d2 |- _ => apply H end|assumption]). destruct E3 as [-> ->]. rewrite E2. exact K.
    + assert (E3 : rbuf d2 = rbuf d1 /\ toRead d2 = toRead d1) by (inversion Hl; split; assumption). destruct E3 as [-> ->].
      assert (E3 : rst d1 = REOk) by (apply se_not_waiting; inversion Hl; assumption). rewrite E2, <- E3. exact K.
    + inversion Hl as [| | | |tk' Aw Hio Hlen Hpos Hwf Hsz Hring].
      match goal with H : toRead d2 = 0%Z |- _ => rewrite H end. rewrite Hsz, E2. intro E. destruct (K E) as (C1 & C2 & C3 & C4).
      destruct Hring as [R1 R2]; [exact C1|lia|]. rewrite R2, C2, <- app_assoc. pose proof (ok_avail _ R1). splits; auto; try lia. discriminate.
  - (* calls *)
    intros e a d1 d2 HT Hg HI (K1 & K2 & K) Hc Hn. destruct (call_delta _ _ _ _ _ (se_contract False P) e d1 d2 HI Hg Hc Hn) as [_ [Hr|[R Hr]]].
    + destruct Hr as (Hnr & _ & _ & T1 & _ & _ & T2 & T3 & _ & _ & _ & _ & T4 & _ & T5 & ((_ & _ & _ & Hfl) & _ & _ & _ & _ & _ & Hf & _)).
      split.
      { destruct (e_op e) eqn:Eq; try discriminate Hnr; try (destruct Hf as [(Hf & _)|(x1 & x2 & x3 & Hf)]; [|discriminate Hf]; congruence).
        destruct Hc as [_ Hc]. cbn [d_call] in Hc. injection Hc as _ <-. cbn. eapply HT; exact Eq. }
      split; [exact (se_tline_fields _ _ T1 T2 Hfl K2)|].
      unfold r_call. rewrite Hnr. unfold r_fits in *. cbn [r_ok r_in r_out r_ask]. intro E. destruct (K E) as (C1 & C2 & C3 & C4).
      destruct (T5 C1) as [R6 R7]. rewrite T1, T3, T4, C2, R7, <- app_assoc.
      assert (Hav : avail (rbuf d2) <= avail (rbuf d1)).
      { pose proof (f_equal (@length _) R7) as Hl. rewrite app_length in Hl. rewrite !contents_length in Hl by first [apply R6 | apply C1]. lia. }
      splits; auto; [lia|]. intro Q. destruct (C4 Q) as (n & -> & Hb). exists n. split; [reflexivity|lia].
    + pose proof Hc as Hc'. rewrite R in Hc'. destruct Hc' as (_ & _ & _ & Hc'). destruct (se_reset_exact False P d1 d2 HI Hc') as (y & -> & _).
      split; [exact K1|]. split; [apply se_tline_zero; reflexivity|]. unfold r_call. rewrite R. cbn [is_reset].
      pose proof (c_wf _ _ _ _ _ (se_contract False P) d1 HI) as (_ & Hrw & _). destruct (ring_flush_ok _ Hrw) as [G1 G2]. pose proof (ok_avail _ G1).
      unfold r_fits. cbn [se_reseted rbuf toRead rst r_zero r_ok r_in r_out r_ask se_asks]. intros _. rewrite G2. splits; auto; [lia|discriminate].
Qed.

(** What read() returned plus what the driver holds is what it read from the
    port, as long as no reply announced more than was asked for. *)
Theorem se_received : forall P d0 e0 h p d1 tr d, se_built d0 -> se_step P d0 e0 d1 -> e_op e0 = OpSetHostPort h p TCP -> se_hist P d1 tr d -> Forall tcp_only tr ->
  let acc := r_log (rxE_req P) (rxE_rep P) tr in
  r_ok acc = true -> r_in acc = r_out acc ++ contents (rbuf d) /\ ring_ok (rbuf d).
Proof.
  intros P d0 e0 h p d1 tr d HB Hs Eo Hh HQ acc Hok. pose proof (se_built_fresh _ HB) as (_ & _ & _ & F2 & _ & _ & _ & _ & F5 & _ & F6 & _ & _ & F3 & _).
  assert (H1 : se_tcp r_zero d1).
  { destruct (se_cases P d0 e0 d1 Hs) as (dx & Ed & HA & [(oo & E & _)|(_ & _ & _ & Hc)]); [congruence|]. rewrite Eo in Hc.
    destruct Hc as [_ Hc]. cbn [d_call] in Hc. injection Hc as _ <-. rewrite Ed.
    split; [reflexivity|]. split; [apply se_tline_zero; exact F3|]. unfold r_fits. cbn [r_zero r_ok r_in r_out r_ask rbuf toRead rst set_io]. intros _.
    change (ring_ok (rbuf d0) /\ [] = [] ++ contents (rbuf d0) /\ (Z.of_nat (avail (rbuf d0)) + toRead d0 <= Z.of_nat (rsize (rbuf d0)))%Z /\
      (se_asks (rst d0) = true -> exists n, @None Z = Some n /\ (Z.of_nat (avail (rbuf d0)) + n <= Z.of_nat (rsize (rbuf d0)))%Z)).
    rewrite F5, F3, F2. pose proof (ok_avail _ F6). splits; auto; [lia|discriminate]. }
  destruct (se_tcp_history P d1 tr d Hh HQ r_zero H1) as (_ & _ & G). destruct (G Hok) as (G1 & G2 & _). split; assumption.
Qed.

(** ** Asking for data *)

(** AT+CIPRECVDATA=n asks for at most 2048 bytes, for no more than the read
    buffer has room for and than was announced and not read yet. *)
Theorem se_request : forall P d0 tr d e d' cmd q, se_built d0 -> se_hist P d0 tr d -> se_step P d e d' ->
  In (aCommand cmd q) (e_acts e) -> prefixb (bs "AT+CIPRECVDATA=") cmd = true ->
  exists n, cmd = bs "AT+CIPRECVDATA=" ++ dec n ++ [CR; LF] /\ (0 <= n <= 2048)%Z /\
    (n <= Z.of_nat (ring_space (rbuf d)))%Z /\ (n <= toReceive d')%Z /\ (exists w u, In (w, u) (xe_may (rxE_log P (tr ++ [e]))) /\ (n <= w)%Z) /\
    (e_sch e = [] -> (0 < n)%Z /\ (n + 30 + Z.of_nat (rxav (io d)) <= Z.of_nat (rxsz (io d)) + Z.of_nat (length (taken (e_ev e))))%Z).
Proof.
  intros P d0 tr d e d' cmd q HB Hh Hs Hin Hpre.
  pose proof (se_built_fresh _ HB) as HF. pose proof (se_unlocked P d0 tr d HB Hh) as HL.
  destruct (se_sent P d e d' _ Hs HL Hin eq_refl) as (a & dm & d1 & Ea & Hl & Hx & Ho & Hox & Hd' & Hk & _ & (evx & Hev) & Htx).
  destruct (se_out_effect _ _ _ _ Ho Hox) as (_ & _ & Hsay).
  assert (Hc4 : exists n, cmd = bs "AT+CIPRECVDATA=" ++ dec n ++ [CR; LF] /\
     (0 <= n)%Z /\ (n <= toReceive dm)%Z /\ (n <= Z.of_nat (ring_space (rbuf dm)))%Z /\ (n <= 2048)%Z /\
     (sched (io dm) = [] -> (0 < n)%Z /\ (n + 30 <= Z.of_nat (rxsz (io dm)) - Z.of_nat (rxav (io dm)))%Z)).
  { destruct Hsay as [(_ & -> & _)|[(Hi & -> & _)|[(c & Hi & -> & _)|(Es & _ & n & Hn)]]].
    - discriminate Hpre.
    - discriminate Hpre.
    - exfalso. unfold se_command in Hi. destruct (sst dm); try discriminate Hi; apply some_eq in Hi; subst c; discriminate Hpre.
    - exists n. destruct Hn as (H1 & H2 & H3 & H4 & H5 & H6). splits; auto; apply H6; assumption. }
  destruct Hc4 as (n & Ec & N1 & N2 & N3 & N4 & N5). exists n.
  assert (Hr : rbuf dm = rbuf d) by (destruct Hk as (_ & Hk & _); exact Hk).
  assert (HT : toReceive d' = toReceive dm) by (assert (toReceive d1 = toReceive dm) by (inversion Ho; assumption); rewrite Hd'; assumption).
  split; [exact Ec|]. split; [lia|]. split; [rewrite <- Hr; exact N3|]. split; [lia|]. split.
  - assert (Hh' : se_hist P d0 (tr ++ [e]) d') by (eapply hist_app; [exact Hh|econstructor; [exact Hs|constructor]]).
    destruct (se_rx_history P d0 (tr ++ [e]) d' HF Hh') as (Hrx & _). exists (toReceive d'), (toRead d'). split; [exact Hrx|lia].
  - intro Es. assert (Hsd : sched (io dm) = []).
    { destruct Hev as (_ & _ & _ & _ & Hev). apply Hev. rewrite Es. destruct d; reflexivity. }
    destruct (N5 Hsd) as [M1 M2]. split; [exact M1|].
    assert (Htk : taken (e_ev e) = act_taken a).
    { assert (He : exists oo, e_op e = OpRun oo).
      { destruct (se_cases P d e d' Hs) as (dx & _ & _ & [(oo & Eo & _)|(_ & E0 & _)]); [eauto|]. rewrite E0 in Hin. destruct Hin. }
      destruct He as [oo Eo]. destruct Hs as (_ & _ & _ & _ & _ & _ & Hio & _). unfold call_io in Hio. rewrite Ea, Eo in Hio.
      destruct Hio as [-> _]. unfold acts_taken. cbn. rewrite app_nil_r. reflexivity. }
    assert (Hrx : rxav (io d) <= rxav (io dm) + length (act_taken a) /\ rxsz (io dm) = rxsz (io d)).
    { destruct d. inversion Hl; subst; match goal with H : ioeff _ _ _ _ |- _ => destruct (ioeff_av _ _ _ _ H); destruct (ioeff_caps _ _ _ _ H) end; cbn [act_taken]; split; assumption. }
    rewrite Htk. lia.
Qed.
