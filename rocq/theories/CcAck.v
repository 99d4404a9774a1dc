(** writeBufferProcessed() of the CC1352P7 driver. *)
From Coq Require Import String Ascii ZArith List Bool Arith Lia ZifyBool ZifyNat.
From Verif Require Import Base QueueSpec LineSpec SerialSpec Ring RingProofs LineRing LineRingProofs Serial SerialProofs
  SerStep TaskMacros CStr CStrProofs Dev DevProofs SimDev SimProofs SimSpec SimParse SimLog Sym DrvStep DrvCommon DrvRun DrvHist DrvActs
  Espressif Cc1352 CcSpec CcProofs CcCtl CcCtlIn CcRun AtLine CcHist CcThms CcMore CcLine CcReq CcRest.
Import ListNotations.
Local Open Scope nat_scope.
Ltac Zify.zify_post_hook ::= Z.div_mod_to_equations.
Local Notation dv := (dev ccsend ccreply ccx).
Local Notation ent := (@entry ccop).
Local Notation olabC P := (olab rc_ok (sc_says P) sc_tail sc_insend false).

Definition sc_acks (L : bytes) : bool := prefixb (bs "OK") L.
Definition sc_nacks (L : bytes) : bool := prefixb (bs "ERROR") L || prefixb (bs "SEND FAIL") L.

Definition sc_tx (p : txphase) (d : dv) : Prop :=
  match p with
  | txNone => True
  | txAnnounced => cst d = csTransmitting /\ (sst d = SCSendDataState \/ sst d = SCSerialError) /\ (rst d = RCOk \/ rst d = RCCsq \/ rst d = RCReqMac)
  | txSent => cst d = csTransmitting /\ (sst d = SCConnected \/ sst d = SCSerialError) /\ rst d = RCOk /\ wait d = Some (bs "OK")
  end.

Lemma sc_tx_fields : forall p d d', sst d' = sst d -> rst d' = rst d -> cst d' = cst d -> wait d' = wait d -> sc_tx p d -> sc_tx p d'.
Proof. intros p d d' E1 E2 E3 E4. unfold sc_tx. rewrite E1, E2, E3, E4. auto. Qed.

Lemma sc_output_tx : forall P (U : Prop) d, sc_inv d ->
  (sst d = SCSendCipstart -> not_str (host d) -> U) ->
  wp U (sc_output P d) (fun d' => (sst d = SCSendDataState \/ sst d = SCSerialError -> cst d' = cst d /\ (sst d' = sst d \/ sst d' = SCConnected) /\
    toRead d' = toRead d) /\
    (sst d' = SCSendDataState -> sst d = SCSendDataState \/ rst d' = RCOk) /\ (sst d = SCSendDataState -> sst d' = SCSendDataState \/ wait d' = Some (bs "OK") /\ rst d' = RCOk) /\
    (sst d = SCSerialError -> sst d' = SCSerialError)).
Proof.
  intros P U d H HU. unfold sc_output. destruct (wait d) eqn:Ew.
  { cbn [wp]. splits; auto. }
  destruct (rst d) eqn:Er; cbn [rc_ok negb wp].
  all: try (splits; auto; fail).
  open_inv d H. subst. syms.
  all: try (match goal with |- wp _ (sc_machine _) _ =>
       unfold sc_machine, at_handle_connect, at_handle_disconnect; gs; destruct ss0; gs; syms end).
  all: try (apply HU; [reflexivity | unfold not_str; congruence]).
  all: clear Hwf Hr Ht Hrw Hrs Hww Hws Hwf2 Hl Hw Hpo Hcm HU; cases; gs.
  all: split; [first [ (intros [?|?]; discriminate) | (intros _; split; [reflexivity|split; auto]) ] | split; [first [discriminate | auto]| split; first [discriminate | auto]]].
Qed.

Lemma sc_not_refused : forall d L, sc_nacks L = false -> sc_refused d L = false.
Proof.
  intros d L H. unfold sc_nacks in H. apply orb_false_elim in H as [H1 H2]. unfold sc_refused. rewrite H1, H2. apply andb_false_r.
Qed.

Theorem sc_tx_history : forall P d0 tr d, sc_fresh False d0 -> sc_hist P d0 tr d -> sc_tx (tx_log sc_acks sc_nacks tr) d.
Proof.
  intros P d0 tr d HF Hh. unfold tx_log.
  apply (act_ghost _ _ _ _ _ (sc_contract False P) _ sc_tx (tx_act sc_acks sc_nacks) (fun _ => txNone) (fun _ => True)) with (d := d0); auto.
  - intros p d1 K. destruct p; cbn [sc_tx] in *; [exact I| |]; destruct K as (K1 & K2 & K3); (split; [exact K1|split; [right; reflexivity|exact K3]]).
  - intros p d1 q d2 K _ _ _. exact I.
  - intros p d1 r d2 b K Hl [HI Hx]. destruct b as [q|tk|tk1 tk2|tk L| |cmd q|n q|q|tk]; try (inversion Hl; fail);
      try (destruct Hx as (X1 & X2 & X3 & X4 & _); apply (sc_tx_fields p d1); assumption).
    destruct Hx as [_ Hx]. cbn [tx_act]. destruct (sc_nacks L) eqn:En; [exact I|].
    assert (Hwl : whole_line L) by (inversion Hl; assumption). apply sc_line_effect in Hx; [|exact Hwl]. destruct Hx as [Hx _]. unfold sc_effect in Hx.
    rewrite (sc_not_refused _ _ En) in Hx. destruct Hx as (X1 & X2 & _ & _ & _ & _ & _ & _ & X3 & _ & X4).
    destruct p; [exact I| |].
    + destruct K as (K1 & K2 & K3). assert (Hd : sc_data d1 L = false) by (unfold sc_data; destruct K3 as [->|[->| ->]]; reflexivity).
      rewrite Hd in X1, X2. split; [congruence|]. split; [rewrite X1; exact K2|]. rewrite X2. destruct (_ || _ || _); auto.
    + destruct K as (K1 & K2 & K3 & K4). assert (Hd : sc_data d1 L = false) by (unfold sc_data; rewrite K3; reflexivity).
      destruct (sc_acks L) eqn:Ea; [exact I|]. unfold sc_acks in Ea. rewrite K4, Ea in X3. rewrite Hd in X1, X2.
      split; [congruence|]. split; [rewrite X1; exact K2|]. split; [|exact X3]. rewrite X2. destruct (_ || _ || _); auto.
  - intros e p d1 d2 b _ K Hl Hx. destruct (sc_out_effect _ _ _ _ Hl Hx) as (_ & (_ & _ & Q4) & E2). destruct Hx as (HI & _ & Ho).
    pose proof (sc_output_tx P True d1 HI (fun _ _ => I)) as HT. rewrite Ho in HT. destruct HT as (T1 & T2 & T3 & T4).
    assert (W : wait d1 <> None -> d2 = d1) by (intro Hw; unfold sc_output in Ho; destruct (wait d1); [congruence|contradiction]).
    assert (HA : b <> aQuiet -> wait d1 = None /\ rst d1 = RCOk).
    { intro Hb. assert (Hn : ~ awaiting rc_ok d1) by (destruct Hl; [contradiction Hb; reflexivity|assumption..]). split; [|exact (sc_not_waiting _ Hn)].
      destruct (wait d1) eqn:E; [|reflexivity]. contradiction Hn. left. congruence. }
    destruct b as [q|tk|tk1 tk2|tk L| |cmd q|n q|q|tk]; try (inversion Hl; fail); cbn [tx_act].
    + destruct p; [exact I| |].
      * destruct (wait d1) as [w|] eqn:Ew; [rewrite W by congruence; exact K|]. destruct K as (K1 & K2 & K3). destruct (T1 K2) as (X1 & X2 & X3). split; [congruence|]. rewrite E2. split; [|exact K3].
        destruct K2 as [K2|K2]; [|right; exact (T4 K2)]. destruct (T3 K2) as [T|[T _]]; [left; exact T|]. inversion Hl; congruence.
      * rewrite W; [exact K|]. destruct K as (_ & _ & _ & K). congruence.
    + destruct (HA ltac:(discriminate)) as [A1 A2]. destruct p; [exact I| |].
      * destruct K as (K1 & K2 & K3). destruct (T1 K2) as (X1 & _). split; [congruence|].
        destruct E2 as [(_ & _ & (-> & _ & ->))|[(_ & _ & (-> & _ & ->))|[(c & Hs & _)|(E & _)]]]; cbn [fst snd].
        -- auto.
        -- auto.
        -- exfalso. destruct K2 as [K2|K2]; rewrite K2 in Hs; discriminate Hs.
        -- exfalso. destruct K2; congruence.
      * destruct K as (_ & _ & _ & K). congruence.
    + destruct (HA ltac:(discriminate)) as [A1 A2]. assert (HW : wait d2 = Some (bs ">") /\ cst d2 = csTransmitting) by (inversion Hl; auto).
      destruct HW as [HW1 HW2]. destruct (Q4 HW1) as [E|[E1 E3]]; [congruence|]. split; [exact HW2|]. split; [left; exact E1|left; exact E3].
    + destruct (HA ltac:(discriminate)) as [A1 A2]. destruct p; [exact I| |].
      * destruct K as (K1 & K2 & K3). destruct (T1 K2) as (X1 & X2 & _). inversion Hl as [| | |ev _ _ _ _ _ _ _ _ _ _ _ _ _ _ _ _ _ _ _ I1 I2|].
        assert (K4 : sst d1 = SCSendDataState) by (destruct (sst d1); try discriminate I1; reflexivity).
        destruct (T3 K4) as [T|[T5 T6]]; [rewrite T in I2; discriminate I2|].
        split; [congruence|]. split; [|split; assumption]. destruct X2 as [X2|X2]; [rewrite X2, K4 in I2; discriminate I2|left; assumption].
      * destruct K as (_ & _ & _ & K). congruence.
    + destruct (HA ltac:(discriminate)) as [A1 A2]. destruct p; [exact I| |].
      * exfalso. destruct K as (K1 & K2 & K3). destruct (T1 K2) as (X1 & X2 & _).
        inversion Hl. lia.
      * destruct K as (_ & _ & _ & K). congruence.
  - intros e p d1 d2 _ HI K _ Hn _ _ E1 E2 E3 E4. apply (sc_tx_fields p d1); assumption.
  - intros p d1 d2 _ _ _ _. exact I.
  - apply Forall_forall. auto.
  - exact I.
Qed.
