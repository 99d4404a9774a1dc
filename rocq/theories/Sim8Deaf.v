(** The SIM800 driver: what a piece of zero bytes leads to. *)
From Coq Require Import String Ascii ZArith List Bool Arith Lia ZifyBool ZifyNat.
From Verif Require Import Base QueueSpec LineSpec SerialSpec Ring RingProofs LineRing LineRingProofs Serial SerialProofs
  SerStep TaskMacros CStr CStrProofs Dev DevProofs SimDev SimProofs SimSpec SimParse SimLog Sym DrvStep DrvCommon DrvRun DrvHist DrvActs DrvStuck DrvHand DrvFetch SimHand DrvDeaf
  Sim800 Sim8Spec Sim8Proofs Sim8Ctl Sim8Run Sim8Hist Sim8Thms Sim8Hand Sim8Fetch.
Import ListNotations.
Local Open Scope nat_scope.
Ltac Zify.zify_post_hook ::= Z.div_mod_to_equations.
Local Notation dv := (dev s8send s8reply simx).
Local Notation ent := (@entry simop).

(** Connected, line reading is switched off and no payload is due. *)
Definition s8_deaf (d : dv) : Prop :=
  isopen d = true /\ fReset (fl d) = false /\ fIp (fl d) = true /\ fLine (fl d) = false /\ toRead d = 0%Z /\
  (In (sst d) [S8SendCiprxget4; S8SendCiprxget2; S8WaitReceive; S8Connected; S8SendData; S8SendCipclose] \/ sst d = S8SendCipshut /\ wait d <> None).

Lemma s8_deaf_output : forall d, s8_inv d -> s8_deaf d -> wp True (s8_output d) s8_deaf.
Proof.
  intros d H HK. unfold s8_output. destruct (wait d) eqn:Ew; [exact HK|]. destruct (rst d) eqn:Er; cbn [r8_ok negb]; try exact HK.
  destruct HK as (K1 & K2 & K3 & K4 & K5 & K6). destruct K6 as [K6|[_ K6]]; [|congruence].
  open_inv d H. subst. cbn [In] in K6. syms.
  all: try exact I.
  all: try (match goal with |- wp _ (s8_machine _) _ =>
       unfold s8_machine, at_handle_connect, at_handle_disconnect; gs; destruct ss0; gs; syms end).
  all: try exact I.
  all: try (exfalso; clear -K6; intuition discriminate).
  all: try nulip.
  all: cases; gs; unfold s8_deaf; gs; splits; auto.
  all: try (left; cbn [In]; clear; tauto).
  all: try (right; split; [reflexivity|discriminate]).
  all: try discriminate.
Qed.

Lemma s8_deaf_run : forall P oo (d d' : dv), s8_deaf d -> s8_all d -> s8_run P oo d = Ok d' -> s8_deaf d'.
Proof.
  intros P oo d d' HK (HI & _) E. pose proof HK as (K1 & K2 & K3 & K4 & K5 & K6). unfold s8_run in E. rewrite K1, K2 in E. cbn [negb] in E.
  destruct (fLock (fl d)); [injection E as <-; exact HK|]. cbn [bind] in E. unfold s8_input, at_fill in E. rewrite K4 in E. cbn [bind] in E.
  assert (Er : s8_is_receiving (sst d) = false) by (destruct K6 as [K6|[-> _]]; [|reflexivity]; cbn [In] in K6; repeat (destruct K6 as [<-|K6]; [reflexivity|]); destruct K6).
  rewrite Er, andb_false_r in E. cbn [bind] in E. pose proof (s8_deaf_output d HI HK) as H. rewrite E in H. exact H.
Qed.


Theorem s8_deaf_ever : forall P d tr d', s8_hist P d tr d' -> s8_deaf d -> Forall (fun e => ~ restarts e) tr ->
  s8_deaf d' /\ Forall (fun e => hears None e /\ unread e) tr.
Proof.
  intros P d tr d' Hh HK HF.
  refine (deaf_hist _ _ _ _ _ (s8_contract P) s8_deaf (fun e => ~ restarts e) _ _ _ _ d tr d' Hh HF HK).
  - intros y x H. exact H.
  - intros x (_ & H1 & _ & H2 & H3 & _). auto.
  - exact (s8_deaf_run P).
  - intros e x x' Q (K1 & K2 & K3 & K4 & K5 & K6) HI Hn Hr Hc.
    destruct Hr as [(_ & _ & _ & F0 & _ & F1 & F2 & F3 & F4 & _ & _ & _ & _ & F5 & _ & Hf)|[E _]]; [|contradiction Q; left; exact E].
    destruct Hf as ((G1 & G2 & G7 & G8) & G3 & _ & _ & G4 & G5 & _ & G6).
    unfold s8_deaf. rewrite F0, F1, F2. splits; auto; try congruence.
    destruct G6 as [->|[E _]]; [assumption|contradiction Q; right; exact E].
Qed.

(** A header that announces zero bytes. *)
Lemma s8_zero_piece : forall P N d0 n r d tr d', dialogue (s8_step P) s8_hum N [counted P (bs "+CIPRXGET: 2,0,") 0] d tr d' -> s8_at d0 (s8_c5 n) r d -> modest n -> (0 <= n)%Z -> 20 <= N -> s8_deaf d'.
Proof.
  intros P N d0 n r d tr d' Hd Ha Hn Hn0 HN.
  assert (Hst : s8_stable P N d0 (s8_c5 n) r) by (apply s8_stable_pending; [tauto|cbn; lia|tauto|right; discriminate]).
  destruct (s8_upto P N d0 _ r _ _ d tr d' Hd Ha (or_intror Hst)) as (x & e & d2 & tr2 & E1 & E2 & [H Hz] & Hs & Hr & Hh & Hd2).
  assert (HK : s8_deaf d2).
  { on_inv H. pose proof K as (G & F & _ & _). injection F as F1 F2 F3. assert (Hf : s8_fetches x) by (split; [rewrite Cr; tauto|rewrite Cs; cbn; lia]).
    destruct (s8_turns P N x e d2 _ Hs Hr Hh G F2 Hf) as (o & y & d1 & A0 & A1 & A2 & _ & _ & _ & A3 & A4 & A5 & A6 & A7).
    { intros q L Eq HL. unfold counted in Eq. apply some_eq in Eq. subst q. exact (s8_plain "+CIPRXGET: 2,0," L ltac:(cbn; tauto) (proj1 HL)). }
    destruct o as [L|]; [|destruct A0]. cbn [heard_as counted heard] in *. pose proof (s8_on_shell _ _ _ _ _ H A1) as H1.
    pose proof (s8_hear_header P L y d0 r n 0 H1 (proj1 A0) (proj2 A0) Hn ltac:(lia)) as H2. on_inv H2.
    assert (Hio : io (s8_hear P L y) = io y) by (unfold s8_hear; repeat match goal with |- context [match ?c with _ => _ end] => destruct c end; reflexivity).
    destruct (s8_free N e _ d1 A2 A5 Cw0 Cr0 (proj1 K0) ltac:(rewrite Hio; exact A3) ltac:(lia) A7) as (z & Q & B1 & B2 & B3 & B4 & B5).
    clear - B3 H2 A6 Cs0 Cl0 Cm0 K0. set (v := s8_hear P L y) in *. clearbody v. rewrite A6. change (s8_deaf d1).
    destruct K0 as ((G1 & G2 & G3 & _) & F & _). apply pair_eq in F as [F F3]. apply pair_eq in F as [F1 F2].
    unfold s8_machine in B3. change (sst (set_io z v)) with (sst v) in B3. rewrite Cs0 in B3. change (toRead (set_io z v)) with (toRead v) in B3. rewrite Cm0 in B3.
    cbn [Z.ltb Z.compare] in B3. unfold s8_deaf.
    destruct (_ <? _)%Z; injection B3 as <-; cbn [isopen fl toRead sst wait set_sst set_io]; splits; auto; left; cbn [In]; tauto. }
  clear - HK Hd2. remember (@nil (option (bytes -> Prop))) as ps eqn:Ep. induction Hd2 as [d|ps d e d1 tr d' Hs Hl Hd IH|q ps d e d1 tr d' Hs Hr Ha Hd IH|p ps d e d1 tr d' Hs Hr Hh Hd IH]; try discriminate Ep; [exact HK|].
  apply IH; [exact Ep|]. assert (Hn : ~ restarts e) by (intros [E|E]; rewrite E in Hl; discriminate Hl).
  destruct (s8_deaf_ever P d [e] d1 (hist_cons _ _ _ _ _ _ _ _ _ Hs (hist_nil _ _ _ _ _)) HK ltac:(constructor; [exact Hn|constructor])) as [K _]. exact K.
Qed.

Theorem s8_zero_deaf : forall P N n d tr1 d1 e d2 tr2 d3, s8_on d s8_c0 (rbuf d) d -> avail (wbuf d) = 0 -> ring_ok (rbuf d) -> avail (rbuf d) < rsize (rbuf d) ->
  dialogue (s8_step P) s8_hum N (s8_fetch_replies P n) d tr1 d1 -> s8_step P d1 e d2 -> roomy N d1 e -> hears None e -> e_sch e = [] ->
  dialogue (s8_step P) s8_hum N [counted P (bs "+CIPRXGET: 2,0,") 0] d2 tr2 d3 ->
  modest n -> (0 < n)%Z -> 8 < rxsz (io d) -> 40 <= N -> s8_deaf d3.
Proof.
  intros P N n d tr1 d1 e d2 tr2 d3 H0 Hv Hok Hsp Hd1 Hs Hr Hh He Hd3 Hn Hp Hrx HN. unfold s8_fetch_replies in *.
  destruct (s8_stage_notice P N _ d (rbuf d) d tr1 d1 Hd1 (conj H0 eq_refl) ltac:(lia) Hv) as (xa & ta & A1 & A2 & A3 & A4).
  destruct (s8_stage_count P N _ d (rbuf d) xa ta d1 A4 A3 ltac:(lia)) as (xb & tb & B1 & B2 & B3 & B4).
  destruct (s8_stage_counted P N _ d (rbuf d) n xb tb d1 B4 B3 Hn) as (xc & tc & C1 & C2 & C3 & C4).
  destruct (s8_stage_ok P N _ d (rbuf d) n xc tc d1 C4 C3 ltac:(lia) HN) as (xd & td & s & D1 & D2 & D3 & [(Z0 & _)|(_ & D4)]); [lia|].
  assert (D5 : sent td = [] /\ payloads td = [] /\ s8_asking d n (rbuf d) s d1).
  { destruct D4 as [[-> D4]|[D4 D5]].
    - destruct (s8_rest_at P N d _ _ xd td d1 D3 D4) as (R1 & R2 & R3). splits; auto. left. auto.
    - destruct (s8_rest_at P N d _ _ xd td d1 D3 D4) as (R1 & R2 & R3). splits; auto. right. auto. }
  destruct D5 as (D5 & D6 & D7).
  destruct (s8_ask_now P N d n (rbuf d) s d1 e d2 D7 Hp Hs Hr Hh He HN Hrx ltac:(unfold ring_space; lia)) as (_ & Hat & _).
  apply (s8_zero_piece P N d n (rbuf d) d2 tr2 d3 Hd3 Hat Hn); lia.
Qed.
