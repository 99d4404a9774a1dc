(** writeBufferProcessed() of the Espressif driver. *)
From Coq Require Import String Ascii ZArith List Bool Arith Lia ZifyBool ZifyNat.
From Verif Require Import Base QueueSpec LineSpec SerialSpec Ring RingProofs LineRing LineRingProofs Serial SerialProofs
  SerStep TaskMacros CStr CStrProofs Dev DevProofs SimDev SimProofs SimSpec SimParse SimLog Sym DrvStep DrvCommon DrvRun DrvHist DrvActs
  Espressif EsSpec EsFill EsProofs EsCtl EsCtlIn EsRun AtLine EsHist EsThms EsMore EsLine EsReq EsRest.
Import ListNotations.
Local Open Scope nat_scope.
Ltac Zify.zify_post_hook ::= Z.div_mod_to_equations.
Local Notation dv := (dev essend esreply espx).
Local Notation ent := (@entry esop).
Local Notation olabE P := (olab re_ok (se_says P) se_tail se_insend false).

Definition se_acks (L : bytes) : bool := prefixb (bs "SEND OK") L.
(** The lines that end a transmission without confirming it: the error replies
    and the loss of the network. *)
Definition se_nacks (L : bytes) : bool := se_is_error L || prefixb (bs "SEND FAIL") L || prefixb (bs "WIFI DISCONNECT") L.

Definition se_tx (p : txphase) (d : dv) : Prop :=
  match p with
  | txNone => True
  | txAnnounced => cst d = csTransmitting /\ (sst d = SESendDataState \/ sst d = SESerialError) /\ (rst d = REOk \/ rst d = RERssi \/ rst d = REReqMac)
  | txSent => cst d = csTransmitting /\ (sst d = SEConnected \/ sst d = SESerialError) /\ rst d = REOk /\ wait d = Some (bs "SEND OK")
  end.

Lemma se_tx_fields : forall p d d', sst d' = sst d -> rst d' = rst d -> cst d' = cst d -> wait d' = wait d -> se_tx p d -> se_tx p d'.
Proof. intros p d d' E1 E2 E3 E4. unfold se_tx. rewrite E1, E2, E3, E4. auto. Qed.

Lemma se_output_tx : forall P (U : Prop) d, se_inv d ->
  (sst d = SESendCipstart -> not_str (host d) -> U) -> (sst d = SESendCwjap -> not_str (ssid (ext d)) \/ not_str (passwd (ext d)) -> U) ->
  wp U (se_output P d) (fun d' => (sst d = SESendDataState \/ sst d = SESerialError -> cst d' = cst d /\ (sst d' = sst d \/ sst d' = SEConnected) /\
    toRead d' = toRead d) /\
    (sst d' = SESendDataState -> sst d = SESendDataState \/ rst d' = REOk) /\ (sst d = SESendDataState -> sst d' = SESendDataState \/ wait d' = Some (bs "SEND OK") /\ rst d' = REOk) /\
    (sst d = SESerialError -> sst d' = SESerialError)).
Proof.
  intros P U d H HU HU2. unfold se_output. destruct (wait d) eqn:Ew.
  { cbn [wp]. splits; auto. }
  destruct (rst d) eqn:Er; cbn [re_ok negb wp].
  all: try (splits; auto; fail).
  open_inv d H. subst. syms.
  all: try (match goal with |- wp _ (se_machine _) _ =>
       unfold se_machine, at_handle_connect, at_handle_disconnect; gs; destruct ss0; gs; syms end).
  all: try (apply HU; [reflexivity | unfold not_str; congruence]).
  all: try (apply HU2; [reflexivity | unfold not_str; first [left; congruence | right; congruence]]).
  all: clear Hwf Hr Ht Hrw Hrs Hww Hws Hwf2 Hl Hw Hpo Hcm HU; cases; gs.
  all: split; [first [ (intros [?|?]; discriminate) | (intros _; split; [reflexivity|split; auto]) ] | split; [first [discriminate | auto]| split; first [discriminate | auto]]].
Qed.

Theorem se_tx_history : forall P d0 tr d, se_fresh False d0 -> se_hist P d0 tr d -> se_tx (tx_log se_acks se_nacks tr) d.
Proof.
  intros P d0 tr d HF Hh. unfold tx_log.
  apply (act_ghost _ _ _ _ _ (se_contract False P) _ se_tx (tx_act se_acks se_nacks) (fun _ => txNone) (fun _ => True)) with (d := d0); auto.
  - intros p d1 K. destruct p; cbn [se_tx] in *; [exact I| |]; destruct K as (K1 & K2 & K3); (split; [exact K1|split; [right; reflexivity|exact K3]]).
  - intros p d1 q d2 K _ _ _. exact I.
  - intros p d1 r d2 b K Hl ((_ & _ & Hnp) & _ & Hx). destruct b as [q|tk|tk1 tk2|tk L| |cmd q|n q|q|tk]; try (inversion Hl; fail);
      try (destruct Hx as (X1 & X2 & X3 & X4 & _); apply (se_tx_fields p d1); assumption).
    destruct Hx as [_ Hx]. cbn [tx_act]. destruct (se_nacks L) eqn:En; [exact I|].
    assert (Hwl : se_whole d1 L) by (inversion Hl; assumption). apply se_line_effect in Hx; [|exact Hnp|exact Hwl]. destruct Hx as [(_ & _ & Hx) _].
    unfold se_nacks in En. apply orb_false_elim in En as [En En3]. apply orb_false_elim in En as [En1 En2].
    rewrite En1, En3 in Hx. unfold se_nosend in Hx. rewrite En2 in Hx. rewrite !andb_false_r in Hx. cbn [orb] in Hx. destruct Hx as (X1 & X2 & _ & _ & _ & _ & _ & _ & _ & X3 & _ & X4).
    destruct p; [exact I| |].
    + destruct K as (K1 & K2 & K3). assert (Hd : se_data (rst d1) L = false) by (apply se_data_payload; destruct K3 as [->|[->| ->]]; discriminate).
      rewrite Hd in X1, X2. split; [congruence|]. split; [rewrite X1; exact K2|]. rewrite X2. destruct (_ || _ || _); auto.
    + destruct K as (K1 & K2 & K3 & K4). assert (Hd : se_data (rst d1) L = false) by (apply se_data_payload; rewrite K3; discriminate).
      destruct (se_acks L) eqn:Ea; [exact I|]. unfold se_acks in Ea. rewrite K4 in X3. rewrite Ea in X3. rewrite Hd in X1, X2.
      split; [congruence|]. split; [rewrite X1; exact K2|]. split; [|exact X3]. rewrite X2. destruct (_ || _ || _); auto.
  - intros e p d1 d2 b _ K Hl Hx. destruct (se_out_effect _ _ _ _ Hl Hx) as (_ & (_ & _ & Q4) & E2). destruct Hx as (HI & _ & Ho).
    pose proof (se_output_tx P True d1 HI (fun _ _ => I) (fun _ _ => I)) as HT. rewrite Ho in HT. destruct HT as (T1 & T2 & T3 & T4).
    assert (W : wait d1 <> None -> d2 = d1) by (intro Hw; unfold se_output in Ho; destruct (wait d1); [congruence|contradiction]).
    assert (HA : b <> aQuiet -> wait d1 = None /\ rst d1 = REOk).
    { intro Hb. assert (Hn : ~ awaiting re_ok d1) by (destruct Hl; [contradiction Hb; reflexivity|assumption..]). split; [|exact (se_not_waiting _ Hn)].
      destruct (wait d1) eqn:E; [|reflexivity]. contradiction Hn. left. congruence. }
    destruct b as [q|tk|tk1 tk2|tk L| |cmd q|n q|q|tk]; try (inversion Hl; fail); cbn [tx_act].
    + destruct p; [exact I| |].
      * destruct (wait d1) as [w|] eqn:Ew; [rewrite W by congruence; exact K|]. destruct K as (K1 & K2 & K3). destruct (T1 K2) as (X1 & X2 & X3). split; [congruence|]. rewrite E2. split; [|exact K3].
        destruct K2 as [K2|K2]; [|right; exact (T4 K2)]. destruct (T3 K2) as [T|[T _]]; [left; exact T|]. inversion Hl; congruence.
      * rewrite W; [exact K|]. destruct K as (_ & _ & _ & K). congruence.
    + destruct (HA ltac:(discriminate)) as [A1 A2]. destruct p; [exact I| |].
      * destruct K as (K1 & K2 & K3). destruct (T1 K2) as (X1 & _). split; [congruence|].
        destruct E2 as [(_ & _ & (-> & _ & ->))|[(_ & _ & (-> & _ & ->))|[(c & Hs & _)|(E & _)]]]; cbn [fst snd].
        -- auto.
        -- auto.
        -- exfalso. destruct K2 as [K2|K2]; rewrite K2 in Hs; discriminate Hs.
        -- exfalso. destruct K2; congruence.
      * destruct K as (_ & _ & _ & K). congruence.
    + destruct (HA ltac:(discriminate)) as [A1 A2]. assert (HW : wait d2 = Some (bs ">") /\ cst d2 = csTransmitting) by (inversion Hl; auto).
      destruct HW as [HW1 HW2]. destruct (Q4 HW1) as [E|[E1 E3]]; [congruence|]. split; [exact HW2|]. split; [left; exact E1|left; exact E3].
    + destruct (HA ltac:(discriminate)) as [A1 A2]. destruct p; [exact I| |].
      * destruct K as (K1 & K2 & K3). destruct (T1 K2) as (X1 & X2 & _). inversion Hl as [| | |ev _ _ _ _ _ _ _ _ _ _ _ _ _ _ _ _ _ _ _ I1 I2|].
        assert (K4 : sst d1 = SESendDataState) by (destruct (sst d1); try discriminate I1; reflexivity).
        destruct (T3 K4) as [T|[T5 T6]]; [rewrite T in I2; discriminate I2|].
        split; [congruence|]. split; [|split; assumption]. destruct X2 as [X2|X2]; [rewrite X2, K4 in I2; discriminate I2|left; assumption].
      * destruct K as (_ & _ & _ & K). congruence.
    + destruct (HA ltac:(discriminate)) as [A1 A2]. destruct p; [exact I| |].
      * exfalso. destruct K as (K1 & K2 & K3). destruct (T1 K2) as (X1 & X2 & _).
        inversion Hl. lia.
      * destruct K as (_ & _ & _ & K). congruence.
  - intros e p d1 d2 _ HI K _ Hn _ _ E1 E2 E3 E4. apply (se_tx_fields p d1); assumption.
  - intros p d1 d2 _ _ _ _. exact I.
  - apply Forall_forall. auto.
  - exact I.
Qed.
