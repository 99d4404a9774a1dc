(** Whole sessions of the Espressif driver. *)
From Coq Require Import String Ascii ZArith List Bool Arith Lia ZifyBool ZifyNat.
From Verif Require Import Base QueueSpec LineSpec SerialSpec Ring RingProofs LineRing LineRingProofs Serial SerialProofs
  SerStep TaskMacros CStr CStrProofs Dev DevProofs SimDev SimProofs SimSpec SimParse SimLog Sym DrvStep DrvCommon DrvRun DrvHist DrvActs DrvHand DrvFetch DrvSession
  Espressif EsSpec EsFill EsProofs EsCtl EsCtlIn EsRun EsHist EsThms EsMore EsLine EsHand EsSend EsFetch.
Import ListNotations.
Local Open Scope nat_scope.
Ltac Zify.zify_post_hook ::= Z.div_mod_to_equations.
Local Notation dv := (dev essend esreply espx).
Local Notation ent := (@entry esop).
Local Notation olabE P := (olab re_ok (se_says P) se_tail se_insend false).

(** Nothing is being received.  [x]: a connection may be asked for, [y]: its end may be
    asked for, [w]: the write buffer, if nothing is to be sent. *)
Definition se_calm (r : ring ascii) (w : option (ring ascii)) (x y : bool) (d : dv) : Prop :=
  isopen d = true /\ fReset (fl d) = false /\ fLock (fl d) = false /\ toRead d = 0%Z /\ toReceive d = 0%Z /\ fLine (fl d) = true /\ fData (fl d) = false /\
  rbuf d = r /\ rst d <> REWaitCiprecvdata /\ rst d <> REParseCiprecvdata /\
  sst d <> SESendCiprecvdata /\ sst d <> SEWaitReceive /\ sst d <> SEReceiving /\
  (forall v, w = Some v -> wbuf d = v /\ avail v = 0 /\ sst d <> SESendDataState) /\
  ((x = true /\ sst d = SENotConnected) \/ fConnect (fl d) = false) /\ ((y = true /\ sst d = SEConnected /\ w <> None) \/ fDisc (fl d) = false).

Lemma se_calm_io : forall r w x y z d, se_calm r w x y d -> se_calm r w x y (set_io z d).
Proof. intros r w x y z d H. exact H. Qed.

Lemma se_calm_output : forall P r w x y d, se_inv d -> se_calm r w x y d -> wp True (se_output P d) (se_calm r w x y).
Proof.
  intros P r w x y d H HK. unfold se_output. destruct (wait d) eqn:Ew; [exact HK|]. destruct (rst d) eqn:Er; cbn [re_ok negb]; try exact HK.
  destruct HK as (K1 & K2 & K3 & K4 & K5 & K6 & K7 & K8 & K9 & K10 & K11 & K12 & K13 & K14 & K15 & K16).
  open_inv d H. subst. cbn [isopen fl fReset fLock toRead toReceive fLine fData rbuf rst sst wbuf fConnect fDisc] in *. subst. syms.
  all: try exact I.
  all: try (match goal with |- wp _ (se_machine _) _ =>
       unfold se_machine, at_handle_connect, at_handle_disconnect; gs; destruct ss0; gs; syms end).
  all: try exact I.
  all: try contradiction.
  all: cases; gs; unfold se_calm; gs; splits; auto.
  all: try discriminate.
  all: try (intros v Ev; destruct (K14 v Ev) as (Q1 & Q2 & Q3); splits; auto; discriminate || contradiction).
  all: try (destruct K15 as [[_ K15]|K15]; [discriminate K15|right; exact K15]).
  all: try (destruct K16 as [(_ & K16 & _)|K16]; [discriminate K16|right; exact K16]).
  - intros v Ev. destruct (K14 v Ev) as (<- & Q & _). exfalso. lia.
  - destruct K16 as [(_ & _ & K16)|K16]; [|right; exact K16]. destruct w as [v|]; [|contradiction K16; reflexivity].
    destruct (K14 v eq_refl) as (<- & Q & _). exfalso. lia.
Qed.

Definition se_harmless (y : bool) (L : bytes) : Prop := se_is_error L = false /\ prefixb (bs "+IPD") L = false /\ (y = true -> prefixb (bs "WIFI DISCONNECT") L = false).

Lemma se_calm_run : forall P N r w x y d e d', se_step P d e d' -> roomy N d e -> hears None e \/ hears (Some (se_harmless y)) e -> se_calm r w x y d ->
  se_calm r w x y d' /\ payload e = [].
Proof.
  intros P N r w x y d e d' Hs ((oo & Eo) & Ht) Hh HK. pose proof HK as (K1 & K2 & K3 & K4 & K5 & K6 & K7 & K8 & K9 & K10 & K11 & K12 & K13 & K14 & K15 & K16).
  destruct (se_parts P d e d' oo Hs Eo K3) as (d1 & Hd & [(_ & E & _)|[(_ & E & _)|(_ & _ & a & d2 & q & Hi & (HI & _ & Hx) & Hr)]]); [congruence|congruence|].
  assert (Hm : q = false /\ se_calm r w x y d2).
  { destruct Hi as [tk E1 E2 E3 E4 E5 E6 E7 (E8 & E9 & E10 & E11 & E12 & E13) E14 E15 E16 E17 E18 E19 E20 E21 E22 E23 E24
      |tk1 tk2 E1 E2 E3 E4 E5 E6 E7 E8 E9 E10 E11 (E12 & E13 & E14 & E15 & E16 & E17) E18 E19 E20 E21 E22 E23 E24 E25 E26 E27
      |tk L E1 E2 E3 E4 E5 (E6 & E7 & E8 & E9 & E10 & E11) E12 E13 E14 E15].
    - split; [exact E1|]. unfold se_calm. rewrite E8, E9, E10, E14, E17, E18, E20, E21. exact HK.
    - split; [exact E1|]. unfold se_calm. change (toRead (during (e_sch e) d)) with (toRead d) in *. rewrite K4 in *. assert (T : toRead d2 = 0%Z) by lia. specialize (E26 T).
      rewrite E12, E13, E14, E20, E21, T, E11. assert (Hf : fl d2 = fl d) by (destruct E27 as [->| ->]; [reflexivity|]; change (fl (on_line true d) = fl d); clear - K6; destruct d as [? ? ? ? ? ? ? [? ? ? ? ? fn ?]]; cbn in *; subst fn; reflexivity).
      rewrite Hf. splits; auto.
    - assert (HL : se_harmless y L).
      { destruct Hh as [Hh|(tk' & L' & Hin & HL)]; [exfalso; apply (Hh tk L); destruct Hr as [[-> _]|(b & _ & -> & _)]; left; reflexivity|].
        replace L with L'; [exact HL|]. destruct Hr as [(Ea & _)|(b & _ & Ea & Hol & _)]; rewrite Ea in Hin; cbn [In] in Hin; destruct Hin as [Hin|Hin]; try (congruence || (exfalso; exact Hin)).
        exfalso. destruct Hin as [->|[]]. inversion Hol. }
      destruct HL as (L1 & L2 & L3). destruct Hx as [(_ & _ & (Hf1 & Hf2 & Hf3) & _) Hx]. apply se_line_effect in Hx; [|exact K10|exact E4]. destruct Hx as [(_ & _ & Hx) Hq]. rewrite L1 in Hx, Hq. split; [exact Hq|].
      cbv zeta in Hx. change (rst (during (e_sch e) d)) with (rst d) in Hx. change (sst (during (e_sch e) d)) with (sst d) in Hx.
      assert (Hda : se_data (rst d) L = false) by (unfold se_data, se_header; destruct (rst d); try apply andb_false_r; contradiction).
      rewrite Hda, L2, !andb_false_r in Hx. cbn [orb andb] in Hx.
      destruct Hx as (X1 & X2 & _ & _ & X3 & X4 & X5 & X6 & _ & _ & X7 & _).
      unfold se_calm. rewrite E6, E7, E8, X3, X4, X5, X6, X7, Hf1, Hf2, Hf3. cbn [during set_io isopen rbuf wbuf fl toRead toReceive].
      assert (R : rst d2 = rst d \/ rst d2 = REOk) by (rewrite X2; destruct (_ || _); auto).
      splits; auto; try (destruct R as [->| ->]; auto; discriminate); try (rewrite X1; destruct (_ && _); auto; discriminate).
      + intros v Ev. destruct (K14 v Ev) as (Q1 & Q2 & Q3). splits; auto. rewrite X1. destruct (_ && _); auto; discriminate.
      + destruct K15 as [[-> Q]|Q]; [left|right; exact Q]. split; [reflexivity|]. rewrite X1, Q. reflexivity.
      + destruct K16 as [(-> & Q & Q2)|Q]; [left|right; exact Q]. splits; auto. rewrite X1, (L3 eq_refl), andb_false_r. exact Q. }
  assert (Pa : act_payload a = []) by (destruct Hi; reflexivity).
  destruct Hr as [(Ea & -> & Er)|(b & Er & Ea & Hol & Hox)].
  - exfalso. destruct Hm. congruence.
  - destruct Hm as [_ Hm]. rewrite Hd. destruct Hox as (I2 & _ & Eq). split.
    + apply se_calm_io. pose proof (se_calm_output P r w x y d2 I2 Hm) as W. rewrite Eq in W. exact W.
    + unfold payload. rewrite Ea. cbn [map concat]. rewrite Pa. destruct Hm as (_ & _ & _ & M & _). destruct Hol; try reflexivity. exfalso. lia.
Qed.

(** A connection is asked for by connect() only. *)
Definition se_unasked (d : dv) : Prop := fLock (fl d) = false /\ fConnect (fl d) = false.
Lemma se_unasked_output : forall P d, se_inv d -> fConnect (fl d) = false -> wp True (se_output P d) (fun x => fConnect (fl x) = false).
Proof.
  intros P d H HK. unfold se_output. destruct (wait d) eqn:Ew; [exact HK|]. destruct (rst d) eqn:Er; cbn [re_ok negb]; try exact HK.
  open_inv d H. subst. cbn [fl fConnect] in *. subst. syms.
  all: try exact I.
  all: try (match goal with |- wp _ (se_machine _) _ =>
       unfold se_machine, at_handle_connect, at_handle_disconnect; gs; destruct ss0; gs; syms end).
  all: try exact I.
  all: cases; gs; auto.
Qed.
Lemma se_unasked_step : forall P d e d', se_step P d e d' -> looks (e_op e) = true \/ (exists oo, e_op e = OpRun oo) -> se_unasked d -> se_unasked d'.
Proof.
  intros P d e d' Hs Ho [H1 H2]. split; [exact (se_lock_step P d e d' Hs H1)|]. destruct Ho as [Hl|(oo & Eo)].
  - destruct (se_look P d e d' Hs Hl) as [-> _]. exact H2.
  - destruct (se_parts P d e d' oo Hs Eo H1) as (d1 & -> & [(_ & _ & ->)|[(_ & _ & q & _ & _ & (_ & _ & _ & R & _))|(_ & _ & a & d2 & r & Hi & (_ & _ & Hx) & Hr)]]).
    + destruct oo; exact H2.
    + change (fConnect (fl d1) = false). rewrite R. reflexivity.
    + assert (M : fConnect (fl d2) = false).
      { transitivity (fConnect (fl (during (e_sch e) d))); [|exact H2]. destruct a; unfold se_same, se_ictl in Hx; tauto. }
      destruct Hr as [(_ & -> & _)|(b & _ & _ & _ & (I2 & _ & Eq))]; [exact M|].
      pose proof (se_unasked_output P d2 I2 M) as W. rewrite Eq in W. exact W.
Qed.
