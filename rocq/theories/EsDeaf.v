(** The Espressif driver: what a piece of zero bytes leads to. *)
From Coq Require Import String Ascii ZArith List Bool Arith Lia ZifyBool ZifyNat.
From Verif Require Import Base QueueSpec LineSpec SerialSpec Ring RingProofs LineRing LineRingProofs Serial SerialProofs
  SerStep TaskMacros CStr CStrProofs Dev DevProofs SimDev SimProofs SimSpec SimParse SimLog Sym DrvStep DrvCommon DrvRun DrvHist DrvActs DrvStuck DrvHand DrvFetch DrvDeaf
  Espressif EsSpec EsFill EsProofs EsCtl EsRun EsHist EsThms EsHand EsFetch.
Import ListNotations.
Local Open Scope nat_scope.
Ltac Zify.zify_post_hook ::= Z.div_mod_to_equations.
Local Notation dv := (dev essend esreply espx).
Local Notation ent := (@entry esop).

(** Connected, line reading is switched off and no payload is due. *)
Definition se_mute (d : dv) : Prop :=
  isopen d = true /\ fReset (fl d) = false /\ fIp (fl d) = true /\ fLine (fl d) = false /\ toRead d = 0%Z /\ fData (fl d) = false /\
  (In (sst d) [SESendCiprecvdata; SEWaitReceive; SEConnected; SESendDataState; SESendCipclose] \/ sst d = SESendCwqap /\ wait d <> None).

Lemma se_mute_output : forall P d, se_inv d -> se_mute d -> wp True (se_output P d) se_mute.
Proof.
  intros P d H HK. unfold se_output. destruct (wait d) eqn:Ew; [exact HK|]. destruct (rst d) eqn:Er; cbn [re_ok negb]; try exact HK.
  destruct HK as (K1 & K2 & K3 & K4 & K5 & K7 & K6). destruct K6 as [K6|[_ K6]]; [|congruence].
  open_inv d H. subst. cbn [In] in K6. syms.
  all: try exact I.
  all: try (match goal with |- wp _ (se_machine _) _ =>
       unfold se_machine, at_handle_connect, at_handle_disconnect; gs; destruct ss0; gs; syms end).
  all: try exact I.
  all: try (exfalso; clear -K6; intuition discriminate).
  all: cases; gs; unfold se_mute; gs; splits; auto.
  all: try (left; cbn [In]; clear; tauto).
  all: try (right; split; [reflexivity|discriminate]).
  all: try discriminate.
Qed.

Lemma se_mute_run : forall P oo (d d' : dv), se_mute d -> se_all False d -> se_run P oo d = Ok d' -> se_mute d'.
Proof.
  intros P oo d d' HK (HI & _) E. pose proof HK as (K1 & K2 & K3 & K4 & K5 & K7 & K6). unfold se_run in E. rewrite K1, K2 in E. cbn [negb] in E.
  cbn [bind] in E. unfold se_input, se_fill in E. rewrite K4 in E. cbn [bind] in E.
  assert (Er : se_is_receiving (sst d) = false) by (destruct K6 as [K6|[-> _]]; [|reflexivity]; cbn [In] in K6; repeat (destruct K6 as [<-|K6]; [reflexivity|]); destruct K6).
  rewrite Er, andb_false_r in E. cbn [bind] in E. pose proof (se_mute_output P d HI HK) as H. rewrite E in H. exact H.
Qed.


Theorem se_mute_ever : forall P d tr d', se_hist P d tr d' -> se_mute d -> Forall (fun e => ~ restarts e) tr ->
  se_mute d' /\ Forall (fun e => hears None e /\ unread e) tr.
Proof.
  intros P d tr d' Hh HK HF.
  refine (deaf_hist _ _ _ _ _ (se_contract False P) se_mute (fun e => ~ restarts e) _ _ _ _ d tr d' Hh HF HK).
  - intros y x H. exact H.
  - intros x (_ & H1 & _ & H2 & H3 & _). auto.
  - exact (se_mute_run P).
  - intros e x x' Q (K1 & K2 & K3 & K4 & K5 & K7 & K6) HI Hn Hr Hc.
    destruct Hr as [(_ & _ & _ & F0 & _ & F1 & F2 & F3 & F4 & _ & _ & _ & _ & F5 & _ & Hf)|[E _]]; [|contradiction Q; left; exact E].
    destruct Hf as ((G1 & G2 & G7 & G8) & G3 & _ & _ & G4 & G5 & _ & G6).
    unfold se_mute. rewrite F0, F1, F2. splits; auto; try congruence.
    destruct G6 as [->|[E _]]; [assumption|contradiction Q; right; exact E].
Qed.

(** A header that announces zero bytes. *)
Lemma se_zero_piece : forall P N d0 n r d tr d', dialogue (se_step P) se_hum N [headed P 0] d tr d' -> se_at P d0 (se_c5 n) r d -> modest n -> (0 <= n)%Z -> 20 <= N -> se_mute d'.
Proof.
  intros P N d0 n r d tr d' Hd Ha Hn Hn0 HN.
  assert (Hst : se_stable P N d0 (se_c5 n) r) by (apply se_stable_pending; [tauto|cbn; lia|tauto|right; discriminate]).
  destruct (se_upto P N d0 _ r _ _ d tr d' Hd Ha (or_intror Hst)) as (x & e & d2 & tr2 & E1 & E2 & [H Hz] & Hs & Hr & Hh & Hd2).
  assert (HK : se_mute d2).
  { on_inv H. pose proof K as (G & F & _ & _). injection F as F1 F2 F3. assert (Hf : se_fetches x) by (split; [rewrite Cr; tauto|split; [rewrite Cs; cbn; lia|apply G]]).
    destruct (se_turns P N x e d2 _ Hs Hr Hh G F2 Hf) as (o & y & d1 & A0 & A1 & A2 & _ & _ & _ & A3 & A4 & A5 & A6 & A7).
    { intros q L Eq HL. unfold headed in Eq. apply some_eq in Eq. subst q. exact (se_plain "+CIPRECVDATA" L ltac:(cbn; tauto) (proj1 (headed_ok P 0 L HL))). }
    destruct o as [L|]; [|destruct A0]. cbn [heard_as headed heard] in *. apply (headed_ok P 0 L) in A0. pose proof (se_on_shell _ _ _ _ _ _ H A1) as H1.
    pose proof (se_hear_header P L y d0 r n 0 H1 (proj1 (proj2 A0)) (proj1 A0) (proj2 (proj2 A0)) Hn ltac:(lia)) as H2. on_inv H2.
    assert (Hio : io (se_hear P L y) = io y) by (unfold se_hear; repeat match goal with |- context [match ?c with _ => _ end] => destruct c end; reflexivity).
    destruct (se_free P N e _ d1 A2 A5 Cw0 Cr0 (proj1 K0) ltac:(rewrite Hio; exact A3) ltac:(lia) A7) as (z & Q & B1 & B2 & B3 & B4 & B5).
    clear - B3 H2 A6 Cs0 Cl0 Cm0 K0. set (v := se_hear P L y) in *. clearbody v. rewrite A6. change (se_mute d1).
    destruct K0 as ((G1 & G2 & G3 & _) & F & _). apply pair_eq in F as [F F3]. apply pair_eq in F as [F1 F2].
    unfold se_machine in B3. change (sst (set_io z v)) with (sst v) in B3. rewrite Cs0 in B3. change (toRead (set_io z v)) with (toRead v) in B3. rewrite Cm0 in B3.
    cbn [Z.ltb Z.compare] in B3. unfold se_mute. injection B3 as <-.
    cbn [isopen fl toRead sst wait set_sst set_io]. splits; auto; left; destruct (_ <? _)%Z; cbn [In]; tauto. }
  clear - HK Hd2. remember (@nil (option (bytes -> Prop))) as ps eqn:Ep. induction Hd2 as [d|ps d e d1 tr d' Hs Hl Hd IH|q ps d e d1 tr d' Hs Hr Ha Hd IH|p ps d e d1 tr d' Hs Hr Hh Hd IH]; try discriminate Ep; [exact HK|].
  apply IH; [exact Ep|]. assert (Hn : ~ restarts e) by (intros [E|E]; rewrite E in Hl; discriminate Hl).
  destruct (se_mute_ever P d [e] d1 (hist_cons _ _ _ _ _ _ _ _ _ Hs (hist_nil _ _ _ _ _)) HK ltac:(constructor; [exact Hn|constructor])) as [K _]. exact K.
Qed.

Theorem se_zero_mute : forall P N n d tr1 d1 e d2 tr2 d3, se_on P d se_c0 (rbuf d) d -> avail (wbuf d) = 0 -> ring_ok (rbuf d) -> avail (rbuf d) < rsize (rbuf d) ->
  dialogue (se_step P) se_hum N (se_fetch_replies P n) d tr1 d1 -> se_step P d1 e d2 -> roomy N d1 e -> hears None e -> e_sch e = [] ->
  dialogue (se_step P) se_hum N [headed P 0] d2 tr2 d3 ->
  modest n -> (0 < n)%Z -> 30 < rxsz (io d) -> 40 <= N -> se_mute d3.
Proof.
  intros P N n d tr1 d1 e d2 tr2 d3 H0 Hv Hok Hsp Hd1 Hs Hr Hh He Hd3 Hn Hp Hrx HN. unfold se_fetch_replies in *.
  destruct (se_stage_notice P N _ d (rbuf d) n d tr1 d1 Hd1 (conj H0 eq_refl) ltac:(lia) Hv Hn) as (xa & ta & A1 & A2 & A3 & A4).
  destruct (se_rest_at P N d _ _ xa ta d1 A4 A3) as (R1 & R2 & R3).
  destruct (se_ask_now P N d n (rbuf d) d1 e d2 R3 Hp Hs Hr Hh He HN Hrx ltac:(unfold ring_space; lia)) as (_ & Hat & _).
  apply (se_zero_piece P N d n (rbuf d) d2 tr2 d3 Hd3 Hat Hn); lia.
Qed.
