(** The CC1352P7 driver: what a piece of zero bytes leads to. *)
From Coq Require Import String Ascii ZArith List Bool Arith Lia ZifyBool ZifyNat.
From Verif Require Import Base QueueSpec LineSpec SerialSpec Ring RingProofs LineRing LineRingProofs Serial SerialProofs
  SerStep TaskMacros CStr CStrProofs Dev DevProofs SimDev SimProofs SimSpec SimParse SimLog Sym DrvStep DrvCommon DrvRun DrvHist DrvActs DrvStuck DrvHand DrvFetch DrvDeaf
  Espressif Cc1352 CcSpec CcProofs CcCtl CcRun CcHist CcThms CcHand CcFetch.
Import ListNotations.
Local Open Scope nat_scope.
Ltac Zify.zify_post_hook ::= Z.div_mod_to_equations.
Local Notation dv := (dev ccsend ccreply ccx).
Local Notation ent := (@entry ccop).

(** Connected, line reading is switched off and no payload is due. *)
Definition sc_deaf (d : dv) : Prop :=
  isopen d = true /\ fReset (fl d) = false /\ fIp (fl d) = true /\ fLine (fl d) = false /\ toRead d = 0%Z /\
  (In (sst d) [SCSendCiprecvdata; SCWaitReceive; SCConnected; SCSendDataState; SCSendCipclose] \/ sst d = SCFinalizeDisconnect /\ wait d <> None).

Lemma sc_deaf_output : forall P d, sc_inv d -> sc_deaf d -> wp True (sc_output P d) sc_deaf.
Proof.
  intros P d H HK. unfold sc_output. destruct (wait d) eqn:Ew; [exact HK|]. destruct (rst d) eqn:Er; cbn [rc_ok negb]; try exact HK.
  destruct HK as (K1 & K2 & K3 & K4 & K5 & K6). destruct K6 as [K6|[_ K6]]; [|congruence].
  open_inv d H. subst. cbn [In] in K6. syms.
  all: try exact I.
  all: try (match goal with |- wp _ (sc_machine _) _ =>
       unfold sc_machine, at_handle_connect, at_handle_disconnect; gs; destruct ss0; gs; syms end).
  all: try exact I.
  all: try (exfalso; clear -K6; intuition discriminate).
  all: cases; gs; unfold sc_deaf; gs; splits; auto.
  all: try (left; cbn [In]; clear; tauto).
  all: try (right; split; [reflexivity|discriminate]).
  all: try discriminate.
Qed.

Lemma sc_deaf_run : forall P oo (d d' : dv), sc_deaf d -> sc_all False d -> sc_run P oo d = Ok d' -> sc_deaf d'.
Proof.
  intros P oo d d' HK (HI & _) E. pose proof HK as (K1 & K2 & K3 & K4 & K5 & K6). unfold sc_run in E. rewrite K1, K2 in E. cbn [negb] in E.
  cbn [bind] in E. unfold sc_input, at_fill in E. rewrite K4 in E. cbn [bind] in E.
  assert (Er : sc_is_receiving (sst d) = false) by (destruct K6 as [K6|[-> _]]; [|reflexivity]; cbn [In] in K6; repeat (destruct K6 as [<-|K6]; [reflexivity|]); destruct K6).
  rewrite Er, andb_false_r in E. cbn [bind] in E. pose proof (sc_deaf_output P d HI HK) as H. rewrite E in H. exact H.
Qed.


Theorem sc_deaf_ever : forall P d tr d', sc_hist P d tr d' -> sc_deaf d -> Forall (fun e => ~ restarts e) tr ->
  sc_deaf d' /\ Forall (fun e => hears None e /\ unread e) tr.
Proof.
  intros P d tr d' Hh HK HF.
  refine (deaf_hist _ _ _ _ _ (sc_contract False P) sc_deaf (fun e => ~ restarts e) _ _ _ _ d tr d' Hh HF HK).
  - intros y x H. exact H.
  - intros x (_ & H1 & _ & H2 & H3 & _). auto.
  - exact (sc_deaf_run P).
  - intros e x x' Q (K1 & K2 & K3 & K4 & K5 & K6) HI Hn Hr Hc.
    destruct Hr as [(_ & _ & _ & F0 & _ & F1 & F2 & F3 & F4 & _ & _ & _ & _ & F5 & _ & Hf)|[E _]]; [|contradiction Q; left; exact E].
    destruct Hf as ((G1 & G2 & G7 & G8) & G3 & _ & _ & G4 & G5 & _ & G6).
    unfold sc_deaf. rewrite F0, F1, F2. splits; auto; try congruence.
    destruct G6 as [->|[E _]]; [assumption|contradiction Q; right; exact E].
Qed.

(** A header that announces zero bytes. *)
Lemma sc_zero_piece : forall P N d0 n r d tr d', dialogue (sc_step P) sc_hum N [numbered P (bs "+CIPRECVDATA") 13 0] d tr d' -> sc_at P d0 (sc_c5 n) r d -> modest n -> (0 <= n)%Z -> 20 <= N -> sc_deaf d'.
Proof.
  intros P N d0 n r d tr d' Hd Ha Hn Hn0 HN.
  assert (Hst : sc_stable P N d0 (sc_c5 n) r) by (apply sc_stable_pending; [tauto|cbn; lia|tauto|right; discriminate]).
  destruct (sc_upto P N d0 _ r _ _ d tr d' Hd Ha (or_intror Hst)) as (x & e & d2 & tr2 & E1 & E2 & [H Hz] & Hs & Hr & Hh & Hd2).
  assert (HK : sc_deaf d2).
  { on_inv H. pose proof K as (G & F & _ & _). injection F as F1 F2 F3. assert (Hf : sc_fetches x) by (split; [rewrite Cr; tauto|rewrite Cs; cbn; lia]).
    destruct (sc_turns P N x e d2 _ Hs Hr Hh G F2 Hf) as (o & y & d1 & A0 & A1 & A2 & _ & _ & _ & A3 & A4 & A5 & A6 & A7).
    { intros q L Eq HL. unfold numbered in Eq. apply some_eq in Eq. subst q. exact (sc_plain "+CIPRECVDATA" L ltac:(cbn; tauto) (proj1 HL)). }
    destruct o as [L|]; [|destruct A0]. cbn [heard_as numbered heard] in *. pose proof (sc_on_shell _ _ _ _ _ _ H A1) as H1.
    pose proof (sc_hear_header P L y d0 r n 0 H1 (proj1 A0) (proj2 A0) Hn ltac:(lia)) as H2. on_inv H2.
    assert (Hio : io (sc_hear P L y) = io y) by (unfold sc_hear; repeat match goal with |- context [match ?c with _ => _ end] => destruct c end; reflexivity).
    destruct (sc_free P N e _ d1 A2 A5 Cw0 Cr0 (proj1 K0) ltac:(rewrite Hio; exact A3) ltac:(lia) A7) as (z & Q & B1 & B2 & B3 & B4 & B5).
    clear - B3 H2 A6 Cs0 Cl0 Cm0 K0. set (v := sc_hear P L y) in *. clearbody v. rewrite A6. change (sc_deaf d1).
    destruct K0 as ((G1 & G2 & G3 & _) & F & _). apply pair_eq in F as [F F3]. apply pair_eq in F as [F1 F2].
    unfold sc_machine in B3. change (sst (set_io z v)) with (sst v) in B3. rewrite Cs0 in B3. change (toRead (set_io z v)) with (toRead v) in B3. rewrite Cm0 in B3.
    cbn [Z.ltb Z.compare] in B3. unfold sc_deaf. injection B3 as <-.
    cbn [isopen fl toRead sst wait set_sst set_io]. splits; auto; left; destruct (_ <? _)%Z; cbn [In]; tauto. }
  clear - HK Hd2. remember (@nil (option (bytes -> Prop))) as ps eqn:Ep. induction Hd2 as [d|ps d e d1 tr d' Hs Hl Hd IH|q ps d e d1 tr d' Hs Hr Ha Hd IH|p ps d e d1 tr d' Hs Hr Hh Hd IH]; try discriminate Ep; [exact HK|].
  apply IH; [exact Ep|]. assert (Hn : ~ restarts e) by (intros [E|E]; rewrite E in Hl; discriminate Hl).
  destruct (sc_deaf_ever P d [e] d1 (hist_cons _ _ _ _ _ _ _ _ _ Hs (hist_nil _ _ _ _ _)) HK ltac:(constructor; [exact Hn|constructor])) as [K _]. exact K.
Qed.

Theorem sc_zero_deaf : forall P N n d tr1 d1 e d2 tr2 d3, sc_on P d sc_c0 (rbuf d) d -> avail (wbuf d) = 0 -> ring_ok (rbuf d) -> avail (rbuf d) < rsize (rbuf d) ->
  dialogue (sc_step P) sc_hum N (sc_fetch_replies P n) d tr1 d1 -> sc_step P d1 e d2 -> roomy N d1 e -> hears None e -> e_sch e = [] ->
  dialogue (sc_step P) sc_hum N [numbered P (bs "+CIPRECVDATA") 13 0] d2 tr2 d3 ->
  modest n -> (0 < n)%Z -> 30 < rxsz (io d) -> 40 <= N -> sc_deaf d3.
Proof.
  intros P N n d tr1 d1 e d2 tr2 d3 H0 Hv Hok Hsp Hd1 Hs Hr Hh He Hd3 Hn Hp Hrx HN. unfold sc_fetch_replies in *.
  destruct (sc_stage_notice P N _ d (rbuf d) n d tr1 d1 Hd1 (conj H0 eq_refl) ltac:(lia) Hv Hn) as (xa & ta & A1 & A2 & A3 & A4).
  destruct (sc_rest_at P N d _ _ xa ta d1 A4 A3) as (R1 & R2 & R3).
  destruct (sc_ask_now P N d n (rbuf d) d1 e d2 R3 Hp Hs Hr Hh He HN Hrx ltac:(unfold ring_space; lia)) as (_ & Hat & _).
  apply (sc_zero_piece P N d n (rbuf d) d2 tr2 d3 Hd3 Hat Hn); lia.
Qed.
