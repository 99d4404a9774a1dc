(** Whole sessions of the SIM800 driver. *)
From Coq Require Import String Ascii ZArith List Bool Arith Lia ZifyBool ZifyNat.
From Verif Require Import Base QueueSpec LineSpec SerialSpec Ring RingProofs LineRing LineRingProofs Serial SerialProofs
  SerStep TaskMacros CStr CStrProofs Dev DevProofs SimDev SimProofs SimSpec SimParse SimLog Sym DrvStep DrvCommon DrvRun DrvHist DrvActs DrvHand SimHand DrvFetch DrvSession
  Sim800 Sim8Spec Sim8Proofs Sim8Ctl Sim8CtlIn Sim8Run Sim8Hist Sim8Thms Sim8More Sim8Line Sim8Req Sim8Rest Sim8Stuck Sim8Hand Sim8Send Sim8Fetch.
Import ListNotations.
Local Open Scope nat_scope.
Ltac Zify.zify_post_hook ::= Z.div_mod_to_equations.
Local Notation dv := (dev s8send s8reply simx).
Local Notation ent := (@entry simop).

(** Nothing is being received.  [x]: a connection may be asked for, [y]: its end may be
    asked for, [w]: the write buffer, if nothing is to be sent. *)
Definition s8_calm (r : ring ascii) (w : option (ring ascii)) (x y : bool) (d : dv) : Prop :=
  isopen d = true /\ fReset (fl d) = false /\ fLock (fl d) = false /\ toRead d = 0%Z /\ toReceive d = 0%Z /\ fLine (fl d) = true /\ fData (fl d) = false /\
  rbuf d = r /\ rst d <> R8Ciprxget4 /\ rst d <> R8Ciprxget2 /\ (rst d = R8Cipstart -> fDisc (fl d) = false) /\ maxrx (ext d) = 1460%Z /\
  sst d <> S8SendCiprxget4 /\ sst d <> S8SendCiprxget2 /\ sst d <> S8WaitReceive /\ sst d <> S8Receiving /\
  (forall v, w = Some v -> wbuf d = v /\ avail v = 0 /\ sst d <> S8SendData) /\
  ((x = true /\ sst d = S8NotConnected) \/ fConnect (fl d) = false) /\ ((y = true /\ sst d = S8Connected /\ w <> None) \/ fDisc (fl d) = false).

Lemma s8_calm_io : forall r w x y z d, s8_calm r w x y d -> s8_calm r w x y (set_io z d).
Proof. intros r w x y z d H. exact H. Qed.

Lemma s8_calm_output : forall r w x y d, s8_inv d -> s8_calm r w x y d -> wp True (s8_output d) (s8_calm r w x y).
Proof.
  intros r w x y d H HK. unfold s8_output. destruct (wait d) eqn:Ew; [exact HK|]. destruct (rst d) eqn:Er; cbn [r8_ok negb]; try exact HK.
  destruct HK as (K1 & K2 & K3 & K4 & K5 & K6 & K7 & K8 & K9 & K10 & K10' & Kx & K11 & K12 & K13 & K13' & K14 & K15 & K16).
  open_inv d H. subst. cbn [isopen fl fReset fLock toRead toReceive fLine fData rbuf rst sst wbuf fConnect fDisc wait ext maxrx] in *. subst. syms.
  all: try exact I.
  all: try (match goal with |- wp _ (s8_machine _) _ =>
       unfold s8_machine, s8_connected, s8_send_cipstart, at_handle_connect, at_handle_disconnect; gs; destruct ss0; gs; syms end).
  all: try exact I.
  all: try contradiction.
  all: cases; gs; unfold s8_calm; gs; splits; auto.
  all: try discriminate.
  all: try (intros v Ev; destruct (K14 v Ev) as (Q1 & Q2 & Q3); splits; auto; discriminate || contradiction).
  all: try (destruct K15 as [[_ K15]|K15]; [discriminate K15|right; exact K15]).
  all: try (destruct K16 as [(_ & K16 & _)|K16]; [discriminate K16|right; exact K16]).
  all: try (apply Hipn; [left; cbn; lia|discriminate]).
  all: try (intros v Ev; destruct (K14 v Ev) as (<- & Q & _); exfalso; lia).
  all: try (intros _; destruct K16 as [(_ & K16 & _)|K16]; [discriminate K16|exact K16]).
  all: destruct K16 as [(_ & _ & K16)|K16]; [|right; exact K16]; destruct w as [v|]; [|contradiction K16; reflexivity];
    destruct (K14 v eq_refl) as (<- & Q & _); exfalso; lia.
Qed.

(** Reading a line does not turn reading of lines off, unless it announces data. *)
Lemma s8_line_kept : forall P d ret d' L, s8_handles P d ret d' L -> rst d <> R8Ciprxget4 -> rst d <> R8Ciprxget2 ->
  fLine (fl d') = fLine (fl d) /\ toRead d' = toRead d /\ toReceive d' = toReceive d.
Proof.
  intros P d ret d' L (r & y & _ & _ & _ & E) H4 H2. change (fLine (fl d)) with (fLine (fl (line_at L r y d))). change (toRead d) with (toRead (line_at L r y d)). change (toReceive d) with (toReceive (line_at L r y d)).
  change (rst d) with (rst (line_at L r y d)) in *.
  generalize dependent (line_at L r y d). clear d. intros d E H4 H2. unfold s8_parse in E.
  destruct (s8_is_error d) as [er|] eqn:E0; [|discriminate E]. cbn [bind] in E. destruct er; [injection E as _ <-; splits; reflexivity|].
  destruct (s8_standard_reply d) as [d1|] eqn:E1; [|discriminate E]. cbn [bind] in E.
  assert (A : (fLine (fl d1) = fLine (fl d) /\ toRead d1 = toRead d /\ toReceive d1 = toReceive d) /\ rst d1 = rst d) by (unfold s8_standard_reply in E1; crack E1; repeat match goal with |- context [if ?b then _ else _] => destruct b end; splits; reflexivity). destruct A as [A1 A2].
  destruct (s8_special_reply P d1) as [d2|] eqn:E2; [|discriminate E]. cbn [bind] in E.
  assert (B : fLine (fl d2) = fLine (fl d1) /\ toRead d2 = toRead d1 /\ toReceive d2 = toReceive d1).
  { assert (I : forall (x : dv) b x', sim_parse_id x = Ok (b, x') -> fLine (fl x') = fLine (fl x) /\ toRead x' = toRead x /\ toReceive x' = toReceive x) by (intros x b x' K; unfold sim_parse_id in K; crack K; splits; reflexivity).
    unfold s8_special_reply in E2. rewrite A2 in E2. destruct (rst d); try contradiction.
    - crack E2; splits; reflexivity.
    - destruct (sim_parse_csq P d1) as [[ok d0]|] eqn:E3; [cbn [bind] in E2|discriminate E2].
      assert (B : fLine (fl d0) = fLine (fl d1) /\ toRead d0 = toRead d1 /\ toReceive d0 = toReceive d1) by (unfold sim_parse_csq in E3; crack E3; splits; reflexivity).
      destruct (sim_parse_id _) as [[ok2 d3]|] eqn:E4; [cbn [bind] in E2|discriminate E2]. apply I in E4. apply ok_inj in E2. subst d2.
      destruct ok, ok2; cbn in E4 |- *; destruct B as (? & ? & ?), E4 as (? & ? & ?); splits; congruence.
    - destruct (sim_parse_id d1) as [[ok2 d3]|] eqn:E4; [cbn [bind] in E2|discriminate E2]. apply I in E4. apply ok_inj in E2. subst d2. destruct ok2; exact E4.
    - crack E2; repeat match goal with |- context [if ?b then _ else _] => destruct b end; splits; reflexivity.
    - match type of E2 with bind ?m _ = _ => destruct m as [[ok d0]|] eqn:E3; [cbn [bind] in E2|discriminate E2] end. unfold sim_parse_dns in E3. crack E3; crack E2; repeat match goal with |- context [if ?b then _ else _] => destruct b end; splits; reflexivity.
    - unfold at_handle_disconnect in E2. destruct (fDisc (fl d1)); cbv beta iota zeta in E2; [apply ok_inj in E2; subst d2; splits; reflexivity|]. crack E2; repeat match goal with |- context [if ?b then _ else _] => destruct b end; splits; reflexivity. }
  assert (C : forall x x' : dv, sim_check_connection (bs "0, CLOSED") x = Ok x' -> fLine (fl x') = fLine (fl x) /\ toRead x' = toRead x /\ toReceive x' = toReceive x) by (intros x x' K; unfold sim_check_connection in K; crack K; repeat match goal with |- context [if ?b then _ else _] => destruct b end; splits; reflexivity).
  assert (B' : fLine (fl d2) = fLine (fl d) /\ toRead d2 = toRead d /\ toReceive d2 = toReceive d) by (destruct A1 as (? & ? & ?), B as (? & ? & ?); splits; congruence).
  destruct (_ <=? _); [|injection E as _ <-; exact B'].
  destruct (sim_check_connection _ d2) as [d3|] eqn:E3; [|discriminate E]. cbn [bind] in E. injection E as _ <-. destruct (C _ _ E3) as (? & ? & ?), B' as (? & ? & ?). splits; congruence.
Qed.

Definition s8_harmless (L : bytes) : Prop :=
  s8_refused L = false /\ prefixb (bs "+CIPRXGET: 1,0") L = false /\ prefixb (bs "0, CONNECT FAIL") L = false /\ prefixb (bs "+CDNSGIP: 0") L = false /\ prefixb (bs "0, CLOSED") L = false.
Lemma s8_refused_error : forall L, s8_refused L = false -> ~ s8_error_line L.
Proof.
  intros L H. unfold s8_refused in H. apply orb_false_iff in H as [H H3]. apply orb_false_iff in H as [H1 H2]. intros [K|[K|K]]; congruence.
Qed.

Lemma s8_calm_run : forall P N r w x y d e d', s8_step P d e d' -> roomy N d e -> hears None e \/ hears (Some s8_harmless) e -> s8_calm r w x y d ->
  s8_calm r w x y d' /\ payload e = [].
Proof.
  intros P N r w x y d e d' Hs ((oo & Eo) & Ht) Hh HK. pose proof HK as (K1 & K2 & K3 & K4 & K5 & K6 & K7 & K8 & K9 & K10 & K10' & Kx & K11 & K12 & K13 & K13' & K14 & K15 & K16).
  destruct (s8_pieces P d e d' oo Hs Eo K1 K3 K2) as (d1 & Hd & a & d2 & q & Hi & (HI & Hx) & Hr).
  assert (Hm : s8_calm r w x y d2).
  { destruct Hi as [tk E1 E2 E3 E4 E5 E6 E7 (E8 & E9 & E10 & E11 & E12 & E13) E14 E15 E16 E17 E18 E19 E20 E21 E22 E23 E24
      |tk1 tk2 E1 E2 E3 E4 E5 E6 E7 E8 E9 E10 E11 (E12 & E13 & E14 & E15 & E16 & E17) E18 E19 E20 E21 E22 E23 E24 E25 E26 E27
      |tk L E1 E2 E3 E4 E5 (E6 & E7 & E8 & E9 & E10 & E11) E12 E13 E14 E15].
    - destruct Hx as (_ & _ & _ & _ & _ & X & _). unfold s8_calm. rewrite E8, E9, E10, E14, E17, E18, E20, E21, X. exact HK.
    - unfold s8_calm. change (toRead (during (e_sch e) d)) with (toRead d) in *. rewrite K4 in *. assert (T : toRead d2 = 0%Z) by lia. specialize (E26 T).
      destruct Hx as (X1 & X2 & _ & _ & _ & X4 & _). rewrite E12, E13, E14, T, E11, X1, X2, X4. assert (Hf : fl d2 = fl d) by (destruct E27 as [->| ->]; [reflexivity|]; change (fl (on_line true d) = fl d); clear - K6; destruct d as [? ? ? ? ? ? ? [? ? ? ? ? fn ?]]; cbn in *; subst fn; reflexivity).
      rewrite Hf. splits; auto.
    - assert (HL : s8_harmless L).
      { destruct Hh as [Hh|(tk' & L' & Hin & HL)]; [exfalso; apply (Hh tk L); destruct Hr as [[-> _]|(b & -> & _)]; left; reflexivity|].
        replace L with L'; [exact HL|]. destruct Hr as [(Ea & _)|(b & Ea & Hol & _)]; rewrite Ea in Hin; cbn [In] in Hin; destruct Hin as [Hin|Hin]; try (congruence || (exfalso; exact Hin)).
        exfalso. destruct Hin as [->|[]]. inversion Hol. }
      pose proof HL as (L1 & L2 & L3 & L4 & _). pose proof (s8_refused_error L L1) as L5. destruct Hx as [(_ & _ & (Hf1 & Hf2' & Hf3) & _ & _ & _ & _ & Hf4 & _ & (_ & Hf7 & _) & _ & Hf5 & _ & Hf6) Hx].
      destruct (s8_line_kept P _ _ _ _ Hx K9 K10) as (X1 & X2 & X3).
      change (rst (during (e_sch e) d)) with (rst d) in *. change (wait (during (e_sch e) d)) with (wait d) in *. change (fl (during (e_sch e) d)) with (fl d) in *.
      change (toRead (during (e_sch e) d)) with (toRead d) in *. change (toReceive (during (e_sch e) d)) with (toReceive d) in *.
      assert (Hf2 : fDisc (fl d2) = fDisc (fl d)) by (destruct Hf2' as [F|(F & Q & _)]; [exact F|]; rewrite F, (K10' Q); reflexivity).
      assert (S : sst d2 = sst d) by (destruct (s8_line_moved P _ _ _ _ Hx) as [S|[(S1 & S2 & _)|(S & _)]]; [exact S|specialize (K10' S1); change (fDisc (fl (during (e_sch e) d))) with (fDisc (fl d)) in S2; congruence|contradiction]).
      assert (F : fReset (fl d2) = false).
      { destruct Hf4 as [F|[_ [F|[[_ F]|[_ F]]]]]; try congruence; contradiction. }
      assert (Fd : fData (fl d2) = false) by (destruct Hf5 as [F5|[_ F5]]; congruence).
      unfold s8_calm. rewrite E6, E7, E8, Hf7, S, F, X1, X2, X3, Fd, Hf1, Hf2, Hf3. cbn [during set_io isopen rbuf wbuf ext].
      splits; auto.
      + destruct Hf6 as [->| ->]; [exact K9|discriminate].
      + destruct Hf6 as [->| ->]; [exact K10|discriminate].
      + intro R. destruct Hf6 as [R'|R']; [|congruence]. rewrite R in R'. symmetry in R'. exact (K10' R'). }
  assert (Pa : act_payload a = []) by (destruct Hi; reflexivity).
  destruct Hr as [(Ea & -> & Er)|(b & Ea & Hol & Hox)].
  - rewrite Hd. split; [apply s8_calm_io; exact Hm|]. unfold payload. rewrite Ea. cbn [map concat]. rewrite Pa. reflexivity.
  - rewrite Hd. destruct Hox as (I2 & _ & Eq). split.
    + apply s8_calm_io. pose proof (s8_calm_output r w x y d2 I2 Hm) as W. rewrite Eq in W. exact W.
    + unfold payload. rewrite Ea. cbn [map concat]. rewrite Pa. destruct Hm as (_ & _ & _ & M & _). destruct Hol; try reflexivity. exfalso. lia.
Qed.

(** While data is fetched, a connection is not asked for. *)
Definition s8_busy (d : dv) : Prop :=
  isopen d = true /\ fReset (fl d) = false /\ fLock (fl d) = false /\ fConnect (fl d) = false /\ fDisc (fl d) = false /\ fIp (fl d) = true /\
  12 <= s8_rank (sst d) <= 17 /\ rst d <> R8Cifsr /\ rst d <> R8Cdnsgip /\ rst d <> R8Cipstart.
Lemma s8_busy_output : forall d, s8_inv d -> s8_busy d -> wp True (s8_output d) s8_busy.
Proof.
  intros d H HK. unfold s8_output. destruct (wait d) eqn:Ew; [exact HK|]. destruct (rst d) eqn:Er; cbn [r8_ok negb]; try exact HK.
  destruct HK as (K1 & K2 & K3 & K4 & K5 & K6 & K7 & K8 & K9 & K10).
  open_inv d H. subst. cbn [isopen fl fReset fLock fConnect fDisc fIp sst rst wait] in *. subst. syms.
  all: try exact I.
  all: try (match goal with |- wp _ (s8_machine _) _ =>
       unfold s8_machine, s8_connected, s8_send_cipstart, at_handle_connect, at_handle_disconnect; gs; destruct ss0; gs; cbn [s8_rank] in K7; try lia; syms end).
  all: try exact I.
  all: cases; gs; unfold s8_busy; gs; splits; auto; try discriminate; cbn [s8_rank]; try lia.
Qed.
Lemma s8_busy_run : forall P N d e d', s8_step P d e d' -> roomy N d e -> hears None e \/ hears (Some (fun L => s8_refused L = false /\ prefixb (bs "0, CLOSED") L = false)) e -> s8_busy d -> s8_busy d'.
Proof.
  intros P N d e d' Hs ((oo & Eo) & Ht) Hh HK. pose proof HK as (K1 & K2 & K3 & K4 & K5 & K6 & K7 & K8 & K9 & K10).
  destruct (s8_pieces P d e d' oo Hs Eo K1 K3 K2) as (d1 & Hd & a & d2 & q & Hi & (HI & Hx) & Hr).
  assert (Hm : s8_busy d2).
  { assert (Ho : isopen d2 = true) by (destruct Hi; match goal with H : keep _ _ |- _ => destruct H as (H & _); rewrite H; exact K1 end).
    destruct Hi as [tk E1 E2 E3 E4 E5 E6 E7 E8 E14 E15 E16 E17 E18 E19 E20 E21 E22 E23 E24
      |tk1 tk2 E1 E2 E3 E4 E5 E6 E7 E8 E9 E10 E11 E12 E18 E19 E20 E21 E22 E23 E24 E25 E26 E27
      |tk L E1 E2 E3 E4 E5 E6 E12 E13 E14 E15].
    - destruct Hx as (X1 & X2 & X3 & X4 & X5 & X6 & X7 & X8 & X9 & X10 & X11 & X12). unfold s8_busy. rewrite X1, X2, X7, X8, X10, X11, X12. splits; auto; apply HK.
    - destruct Hx as (X1 & X2 & X3 & X4 & X5 & X6 & X7 & X8 & X9 & X10 & X11 & X12). unfold s8_busy. rewrite X1, X2, X7, X8, X10, X11, X12. splits; auto; apply HK.
    - assert (HL : s8_refused L = false /\ prefixb (bs "0, CLOSED") L = false).
      { destruct Hh as [Hh|(tk' & L' & Hin & HL)]; [exfalso; apply (Hh tk L); destruct Hr as [[-> _]|(b & -> & _)]; left; reflexivity|].
        replace L with L'; [exact HL|]. destruct Hr as [(Ea & _)|(b & Ea & Hol & _)]; rewrite Ea in Hin; cbn [In] in Hin; destruct Hin as [Hin|Hin]; try (congruence || (exfalso; exact Hin)).
        exfalso. destruct Hin as [->|[]]. inversion Hol. }
      destruct HL as [L1 L2]. pose proof (s8_refused_error L L1) as L5. destruct Hx as [(_ & _ & (Hf1 & Hf2 & Hf3) & _ & _ & _ & _ & Hf4 & _ & _ & Hf5 & _ & _ & Hf6) Hx].
      change (rst (during (e_sch e) d)) with (rst d) in *. change (fl (during (e_sch e) d)) with (fl d) in *.
      assert (S : sst d2 = sst d \/ sst d2 = S8Receiving) by (destruct (s8_line_moved P _ _ _ _ Hx) as [S|[(S1 & S2 & _)|(S & _ & S3)]]; [left; exact S|contradiction|right; exact S3]).
      unfold s8_busy. splits.
      + exact Ho.
      + destruct Hf4 as [F|[_ [F|[[F _]|[F _]]]]]; try congruence; contradiction.
      + congruence.
      + congruence.
      + destruct Hf2 as [F|(F & _)]; congruence.
      + destruct Hf5 as [F|(_ & F)]; congruence.
      + destruct S as [->| ->]; [lia|cbn; lia].
      + destruct S as [->| ->]; [lia|cbn; lia].
      + destruct Hf6 as [->| ->]; [exact K8|discriminate].
      + destruct Hf6 as [->| ->]; [exact K9|discriminate].
      + destruct Hf6 as [->| ->]; [exact K10|discriminate]. }
  destruct Hr as [(_ & -> & _)|(b & _ & _ & (I2 & _ & Eq))]; rewrite Hd; [exact Hm|].
  pose proof (s8_busy_output d2 I2 Hm) as W. rewrite Eq in W. exact W.
Qed.
