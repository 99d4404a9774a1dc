(** Whole sessions of the CC1352P7 driver. *)
From Coq Require Import String Ascii ZArith List Bool Arith Lia ZifyBool ZifyNat.
From Verif Require Import Base QueueSpec LineSpec SerialSpec Ring RingProofs LineRing LineRingProofs Serial SerialProofs
  SerStep TaskMacros CStr CStrProofs Dev DevProofs SimDev SimProofs SimSpec SimParse SimLog Sym DrvStep DrvCommon DrvRun DrvHist DrvActs DrvHand DrvFetch DrvSession
  Espressif Cc1352 CcSpec CcProofs CcCtl CcCtlIn CcRun AtLine CcHist CcThms CcMore CcLine CcReq CcRest CcStuck CcHand CcSend CcFetch.
Import ListNotations.
Local Open Scope nat_scope.
Ltac Zify.zify_post_hook ::= Z.div_mod_to_equations.
Local Notation dv := (dev ccsend ccreply ccx).
Local Notation ent := (@entry ccop).
Local Notation olabC P := (olab rc_ok (sc_says P) sc_tail sc_insend false).

(** Nothing is being received.  [x]: a connection may be asked for, [y]: its end may be
    asked for, [w]: the write buffer, if nothing is to be sent. *)
Definition sc_calm (r : ring ascii) (w : option (ring ascii)) (x y : bool) (d : dv) : Prop :=
  isopen d = true /\ fReset (fl d) = false /\ fLock (fl d) = false /\ toRead d = 0%Z /\ toReceive d = 0%Z /\ fLine (fl d) = true /\ fData (fl d) = false /\
  rbuf d = r /\ rst d <> RCParseCiprecvdata /\
  sst d <> SCSendCiprecvdata /\ sst d <> SCWaitReceive /\ sst d <> SCReceiving /\
  (forall v, w = Some v -> wbuf d = v /\ avail v = 0 /\ sst d <> SCSendDataState) /\
  ((x = true /\ sst d = SCNotConnected) \/ fConnect (fl d) = false) /\ ((y = true /\ sst d = SCConnected /\ w <> None) \/ fDisc (fl d) = false).

Lemma sc_calm_io : forall r w x y z d, sc_calm r w x y d -> sc_calm r w x y (set_io z d).
Proof. intros r w x y z d H. exact H. Qed.

Lemma sc_calm_output : forall P r w x y d, sc_inv d -> sc_calm r w x y d -> wp True (sc_output P d) (sc_calm r w x y).
Proof.
  intros P r w x y d H HK. unfold sc_output. destruct (wait d) eqn:Ew; [exact HK|]. destruct (rst d) eqn:Er; cbn [rc_ok negb]; try exact HK.
  destruct HK as (K1 & K2 & K3 & K4 & K5 & K6 & K7 & K8 & K10 & K11 & K12 & K13 & K14 & K15 & K16).
  open_inv d H. subst. cbn [isopen fl fReset fLock toRead toReceive fLine fData rbuf rst sst wbuf fConnect fDisc] in *. subst. syms.
  all: try exact I.
  all: try (match goal with |- wp _ (sc_machine _) _ =>
       unfold sc_machine, at_handle_connect, at_handle_disconnect; gs; destruct ss0; gs; syms end).
  all: try exact I.
  all: try contradiction.
  all: cases; gs; unfold sc_calm; gs; splits; auto.
  all: try discriminate.
  all: try (intros v Ev; destruct (K14 v Ev) as (Q1 & Q2 & Q3); splits; auto; discriminate || contradiction).
  all: try (destruct K15 as [[_ K15]|K15]; [discriminate K15|right; exact K15]).
  all: try (destruct K16 as [(_ & K16 & _)|K16]; [discriminate K16|right; exact K16]).
  - intros v Ev. destruct (K14 v Ev) as (<- & Q & _). exfalso. lia.
  - destruct K16 as [(_ & _ & K16)|K16]; [|right; exact K16]. destruct w as [v|]; [|contradiction K16; reflexivity].
    destruct (K14 v eq_refl) as (<- & Q & _). exfalso. lia.
Qed.

(** Reading a line does not turn reading off, unless it announces data. *)
Lemma sc_fLine_kept : forall P d ret d' L, sc_handles P d ret d' L -> rst d <> RCParseCiprecvdata -> fLine (fl d') = fLine (fl d).
Proof.
  intros P d ret d' L (r & y & _ & _ & _ & E) Hr. change (fLine (fl d)) with (fLine (fl (line_at L r y d))). change (rst d) with (rst (line_at L r y d)) in Hr.
  generalize dependent (line_at L r y d). clear d. intros d E Hr. unfold sc_parse in E.
  destruct (Cc1352.sc_is_error d) as [[|]|]; cbn [bind] in E; [injection E as _ <-; reflexivity| |discriminate E].
  destruct (sc_standard_reply d) as [d1|] eqn:E1; [|discriminate E]. cbn [bind] in E.
  assert (A : fl d1 = fl d /\ rst d1 = rst d) by (unfold sc_standard_reply in E1; crack E1; repeat match goal with |- context [if ?b then _ else _] => destruct b end; split; reflexivity). destruct A as [A1 A2].
  destruct (sc_special_reply P d1) as [d2|] eqn:E2; [|discriminate E]. cbn [bind] in E.
  assert (M : forall x x', sc_parse_mac x = Ok x' -> fl x' = fl x) by (intros x x' K; unfold sc_parse_mac in K; crack K; reflexivity).
  assert (B : fl d2 = fl d1).
  { unfold sc_special_reply in E2. rewrite A2 in E2. destruct (rst d); [injection E2 as <-; reflexivity|contradiction| |exact (M _ _ E2)].
    destruct (sc_parse_csq P d1) as [[b d3]|] eqn:E3; [|discriminate E2]. cbn [bind] in E2. apply M in E2. rewrite E2.
    unfold sc_parse_csq in E3. crack E3; reflexivity. }
  assert (C : forall x x', sc_unsolicited P x = Ok x' -> fLine (fl x') = fLine (fl x)) by (intros x x' K; unfold sc_unsolicited in K; crack K; repeat match goal with |- context [if ?b then _ else _] => destruct b end; reflexivity).
  rewrite <- A1, <- B. destruct (_ <=? _); [|injection E as _ <-; reflexivity].
  destruct (sc_unsolicited P d2) as [d3|] eqn:E3; [|discriminate E]. cbn [bind] in E. injection E as _ <-. exact (C _ _ E3).
Qed.

Definition sc_harmless (L : bytes) : Prop := sc_is_error L = false /\ prefixb (bs "+IPD") L = false.

Lemma sc_calm_run : forall P N r w x y d e d', sc_step P d e d' -> roomy N d e -> hears None e \/ hears (Some sc_harmless) e -> sc_calm r w x y d ->
  sc_calm r w x y d' /\ payload e = [].
Proof.
  intros P N r w x y d e d' Hs ((oo & Eo) & Ht) Hh HK. pose proof HK as (K1 & K2 & K3 & K4 & K5 & K6 & K7 & K8 & K10 & K11 & K12 & K13 & K14 & K15 & K16).
  destruct (sc_parts P d e d' oo Hs Eo K3) as (d1 & Hd & [(_ & E & _)|(_ & l & dp & Hp & a & d2 & q & Hi & (HI & Hx) & Hr)]); [congruence|].
  destruct Hp as [(F & -> & ->)|(F & _)]; [|change (fReset (fl d) = true) in F; congruence]. cbn [app] in Hr.
  assert (Hm : q = false /\ sc_calm r w x y d2).
  { destruct Hi as [tk E1 E2 E3 E4 E5 E6 E7 (E8 & E9 & E10 & E11 & E12 & E13) E14 E15 E16 E17 E18 E19 E20 E21 E22 E23 E24
      |tk1 tk2 E1 E2 E3 E4 E5 E6 E7 E8 E9 E10 E11 (E12 & E13 & E14 & E15 & E16 & E17) E18 E19 E20 E21 E22 E23 E24 E25 E26 E27
      |tk L E1 E2 E3 E4 E5 (E6 & E7 & E8 & E9 & E10 & E11) E12 E13 E14 E15].
    - split; [exact E1|]. unfold sc_calm. rewrite E8, E9, E10, E14, E17, E18, E20, E21. exact HK.
    - split; [exact E1|]. unfold sc_calm. change (toRead (during (e_sch e) d)) with (toRead d) in *. rewrite K4 in *. assert (T : toRead d2 = 0%Z) by lia. specialize (E26 T).
      rewrite E12, E13, E14, E20, E21, T, E11. assert (Hf : fl d2 = fl d) by (destruct E27 as [->| ->]; [reflexivity|]; change (fl (on_line true d) = fl d); clear - K6; destruct d as [? ? ? ? ? ? ? [? ? ? ? ? fn ?]]; cbn in *; subst fn; reflexivity).
      rewrite Hf. splits; auto.
    - assert (HL : sc_harmless L).
      { destruct Hh as [Hh|(tk' & L' & Hin & HL)]; [exfalso; apply (Hh tk L); destruct Hr as [[-> _]|(b & -> & _)]; left; reflexivity|].
        replace L with L'; [exact HL|]. destruct Hr as [(Ea & _)|(b & Ea & Hol & _)]; rewrite Ea in Hin; cbn [In] in Hin; destruct Hin as [Hin|Hin]; try (congruence || (exfalso; exact Hin)).
        exfalso. destruct Hin as [->|[]]. inversion Hol. }
      destruct HL as (L1 & L2). destruct Hx as [(_ & _ & (Hf1 & Hf2 & Hf3) & _) Hx]. pose proof (sc_fLine_kept P _ _ _ _ Hx K10) as X6. apply sc_line_effect in Hx; [|exact E4]. destruct Hx as [Hx Hq].
      unfold sc_effect in Hx. rewrite (sc_not_refused _ L L1) in Hx, Hq. split; [exact Hq|].
      assert (Hda : sc_data (during (e_sch e) d) L = false) by (unfold sc_data; change (rst (during (e_sch e) d)) with (rst d); destruct (rst d); try reflexivity; contradiction).
      cbv zeta in Hx. rewrite Hda, L2, !andb_false_r in Hx. cbn [orb] in Hx.
      destruct Hx as (X1 & X2 & _ & _ & X3 & X4 & X5 & _ & _ & X7 & _).
      unfold sc_calm. rewrite E6, E7, E8, X1, X3, X4, X5, X6, X7, Hf1, Hf2, Hf3. cbn [during set_io isopen rbuf wbuf fl toRead toReceive].
      assert (R : rst d2 = rst d \/ rst d2 = RCOk) by (rewrite X2; destruct (_ || _); auto).
      splits; auto. destruct R as [->| ->]; auto; discriminate. }
  assert (Pa : act_payload a = []) by (destruct Hi; reflexivity).
  destruct Hr as [(Ea & -> & Er)|(b & Ea & Hol & Hox)].
  - exfalso. destruct Hm. congruence.
  - destruct Hm as [_ Hm]. rewrite Hd. destruct Hox as (I2 & _ & Eq). split.
    + apply sc_calm_io. pose proof (sc_calm_output P r w x y d2 I2 Hm) as W. rewrite Eq in W. exact W.
    + unfold payload. rewrite Ea. cbn [map concat]. rewrite Pa. destruct Hm as (_ & _ & _ & M & _). destruct Hol; try reflexivity. exfalso. lia.
Qed.

(** A connection is asked for by connect() only, if no error makes the driver reconnect. *)
Definition sc_unasked (d : dv) : Prop := isopen d = true /\ fLock (fl d) = false /\ fReset (fl d) = false /\ fConnect (fl d) = false.
Lemma sc_unasked_output : forall P d, sc_inv d -> sc_unasked d -> wp True (sc_output P d) sc_unasked.
Proof.
  intros P d H HK. unfold sc_output. destruct (wait d) eqn:Ew; [exact HK|]. destruct (rst d) eqn:Er; cbn [rc_ok negb]; try exact HK.
  destruct HK as (K1 & K2 & K3 & K4).
  open_inv d H. subst. cbn [isopen fl fLock fReset fConnect] in *. subst. syms.
  all: try exact I.
  all: try (match goal with |- wp _ (sc_machine _) _ =>
       unfold sc_machine, at_handle_connect, at_handle_disconnect; gs; destruct ss0; gs; syms end).
  all: try exact I.
  all: cases; gs; unfold sc_unasked; gs; splits; auto.
Qed.
Lemma sc_unasked_look : forall P d e d', sc_step P d e d' -> looks (e_op e) = true -> sc_unasked d -> sc_unasked d'.
Proof. intros P d e d' Hs Hl H. destruct (sc_look P d e d' Hs Hl) as [-> _]. exact H. Qed.
Lemma sc_unasked_run : forall P N d e d', sc_step P d e d' -> roomy N d e -> hears None e \/ hears (Some (fun L => sc_is_error L = false)) e -> sc_unasked d -> sc_unasked d'.
Proof.
  intros P N d e d' Hs ((oo & Eo) & Ht) Hh HK. pose proof HK as (K1 & K2 & K3 & K4).
  destruct (sc_parts P d e d' oo Hs Eo K2) as (d1 & Hd & [(_ & E & _)|(_ & l & dp & Hp & a & d2 & q & Hi & (HI & Hx) & Hr)]); [congruence|].
  destruct Hp as [(F & -> & ->)|(F & _)]; [|change (fReset (fl d) = true) in F; congruence]. cbn [app] in Hr.
  assert (Hm : q = false /\ sc_unasked d2).
  { destruct (ilab_keepw _ _ _ (sc_shape P) _ _ _ _ Hi) as [(E6 & _) _].
    destruct a as [| | |tk L| | | | |]; try (split; [inversion Hi; assumption|]; destruct Hx as (_ & _ & _ & _ & _ & _ & X1 & X2 & _ & _ & _ & X3); unfold sc_unasked; rewrite E6, X1, X2, X3; exact HK).
    assert (HL : sc_is_error L = false).
    { destruct Hh as [Hh|(tk' & L' & Hin & HL)]; [exfalso; apply (Hh tk L); destruct Hr as [[-> _]|(b & -> & _)]; left; reflexivity|].
      replace L with L'; [exact HL|]. destruct Hr as [(Ea & _)|(b & Ea & Hol & _)]; rewrite Ea in Hin; cbn [In] in Hin; destruct Hin as [Hin|Hin]; try (congruence || (exfalso; exact Hin)).
      exfalso. destruct Hin as [->|[]]. inversion Hol. }
    destruct Hx as [(_ & _ & (Hf1 & Hf2 & Hf3) & _) Hx]. apply sc_line_effect in Hx; [|inversion Hi; assumption]. destruct Hx as [Hx Hq].
    unfold sc_effect in Hx. rewrite (sc_not_refused _ L HL) in Hx, Hq. split; [exact Hq|]. cbv zeta in Hx. destruct Hx as (_ & _ & _ & _ & _ & _ & _ & _ & _ & X7 & _).
    unfold sc_unasked. rewrite E6, Hf1, Hf3, X7. exact HK. }
  destruct Hr as [(Ea & -> & Er)|(b & Ea & Hol & Hox)]; [exfalso; destruct Hm; congruence|].
  destruct Hm as [_ Hm]. rewrite Hd. destruct Hox as (I2 & _ & Eq). pose proof (sc_unasked_output P d2 I2 Hm) as W. rewrite Eq in W. exact W.
Qed.
