(** Whole sessions of the SIM7x00 driver. *)
From Coq Require Import String Ascii ZArith List Bool Arith Lia ZifyBool ZifyNat.
From Verif Require Import Base QueueSpec LineSpec SerialSpec Ring RingProofs LineRing LineRingProofs Serial SerialProofs
  SerStep TaskMacros CStr CStrProofs Dev DevProofs SimDev SimProofs SimSpec SimParse SimLog Sym DrvStep DrvCommon DrvRun DrvHist DrvActs DrvHand SimHand DrvFetch DrvSession
  Sim7x00 Sim7Spec Sim7Proofs Sim7Ctl Sim7CtlIn Sim7Run Sim7Hist Sim7Thms Sim7More Sim7Line Sim7Req Sim7Rest Sim7Stuck Sim7Hand Sim7Send Sim7Fetch.
Import ListNotations.
Local Open Scope nat_scope.
Ltac Zify.zify_post_hook ::= Z.div_mod_to_equations.
Local Notation dv := (dev s7send s7reply simx).
Local Notation ent := (@entry simop).

(** Nothing is being received.  [x]: a connection may be asked for, [y]: its end may be
    asked for, [w]: the write buffer, if nothing is to be sent. *)
Definition s7_calm (r : ring ascii) (w : option (ring ascii)) (x y : bool) (d : dv) : Prop :=
  isopen d = true /\ fReset (fl d) = false /\ fLock (fl d) = false /\ toRead d = 0%Z /\ toReceive d = 0%Z /\ fLine (fl d) = true /\ fData (fl d) = false /\
  rbuf d = r /\ rst d <> R7Ciprxget4 /\ rst d <> R7Ciprxget2 /\ (rst d = R7Cipopen -> wait d = Some (bs "+CIPOPEN: 0,0")) /\ maxrx (ext d) = 1500%Z /\
  sst d <> S7SendCiprxget4 /\ sst d <> S7SendCiprxget2 /\ sst d <> S7WaitReceive /\ sst d <> S7Receiving /\
  (forall v, w = Some v -> wbuf d = v /\ avail v = 0 /\ sst d <> S7SendData) /\
  ((x = true /\ sst d = S7NotConnected) \/ fConnect (fl d) = false) /\ ((y = true /\ sst d = S7Connected /\ w <> None) \/ fDisc (fl d) = false).

Lemma s7_calm_io : forall r w x y z d, s7_calm r w x y d -> s7_calm r w x y (set_io z d).
Proof. intros r w x y z d H. exact H. Qed.

Lemma s7_calm_output : forall r w x y d, s7_inv d -> s7_calm r w x y d -> wp True (s7_output d) (s7_calm r w x y).
Proof.
  intros r w x y d H HK. unfold s7_output. destruct (wait d) eqn:Ew; [exact HK|]. destruct (rst d) eqn:Er; cbn [r7_ok negb]; try exact HK.
  destruct HK as (K1 & K2 & K3 & K4 & K5 & K6 & K7 & K8 & K9 & K10 & K10' & Kx & K11 & K12 & K13 & K13' & K14 & K15 & K16).
  open_inv d H. subst. cbn [isopen fl fReset fLock toRead toReceive fLine fData rbuf rst sst wbuf fConnect fDisc wait ext maxrx] in *. subst. syms.
  all: try exact I.
  all: try (match goal with |- wp _ (s7_machine _) _ =>
       unfold s7_machine, s7_connected, s7_send_cipopen, at_handle_connect, at_handle_disconnect; gs; destruct ss0; gs; syms end).
  all: try exact I.
  all: try contradiction.
  all: cases; gs; unfold s7_calm; gs; splits; auto.
  all: try discriminate.
  all: try (intros v Ev; destruct (K14 v Ev) as (Q1 & Q2 & Q3); splits; auto; discriminate || contradiction).
  all: try (destruct K15 as [[_ K15]|K15]; [discriminate K15|right; exact K15]).
  all: try (destruct K16 as [(_ & K16 & _)|K16]; [discriminate K16|right; exact K16]).
  all: try (apply Hipn; [left; cbn; lia|discriminate]).
  all: try (intros v Ev; destruct (K14 v Ev) as (<- & Q & _); exfalso; lia).
  all: destruct K16 as [(_ & _ & K16)|K16]; [|right; exact K16]; destruct w as [v|]; [|contradiction K16; reflexivity];
    destruct (K14 v eq_refl) as (<- & Q & _); exfalso; lia.
Qed.

(** Reading a line does not turn reading of lines off, unless it announces data. *)
Lemma s7_line_kept : forall P d ret d' L, s7_handles P d ret d' L -> rst d <> R7Ciprxget4 -> rst d <> R7Ciprxget2 ->
  fLine (fl d') = fLine (fl d) /\ toRead d' = toRead d /\ toReceive d' = toReceive d.
Proof.
  intros P d ret d' L (r & y & _ & _ & _ & E) H4 H2. change (fLine (fl d)) with (fLine (fl (line_at L r y d))). change (toRead d) with (toRead (line_at L r y d)). change (toReceive d) with (toReceive (line_at L r y d)).
  change (rst d) with (rst (line_at L r y d)) in *.
  generalize dependent (line_at L r y d). clear d. intros d E H4 H2. unfold s7_parse in E.
  destruct (s7_standard_reply d) as [[b d1]|] eqn:E1; [|discriminate E]. cbn [bind] in E.
  assert (A : (fLine (fl d1) = fLine (fl d) /\ toRead d1 = toRead d /\ toReceive d1 = toReceive d) /\ rst d1 = rst d) by (unfold s7_standard_reply in E1; crack E1; splits; reflexivity). destruct A as [A1 A2].
  destruct b; [injection E as _ <-; exact A1|].
  destruct (s7_special_reply P d1) as [[b d2]|] eqn:E2; [|discriminate E]. cbn [bind] in E.
  assert (B : fLine (fl d2) = fLine (fl d1) /\ toRead d2 = toRead d1 /\ toReceive d2 = toReceive d1).
  { unfold s7_special_reply in E2. rewrite A2 in E2. destruct (rst d); try contradiction.
    - crack E2; splits; reflexivity.
    - match type of E2 with bind ?m _ = _ => destruct m as [[ok d0]|] eqn:E3; [cbn [bind] in E2|discriminate E2] end. unfold sim_parse_csq in E3. crack E3; crack E2; splits; reflexivity.
    - match type of E2 with bind ?m _ = _ => destruct m as [[ok d0]|] eqn:E3; [cbn [bind] in E2|discriminate E2] end. unfold sim_parse_id in E3. crack E3; crack E2; splits; reflexivity.
    - crack E2; splits; reflexivity.
    - crack E2; splits; reflexivity.
    - match type of E2 with bind ?m _ = _ => destruct m as [[ok d0]|] eqn:E3; [cbn [bind] in E2|discriminate E2] end. unfold sim_parse_dns in E3. crack E3; crack E2; repeat match goal with |- context [if ?b then _ else _] => destruct b end; splits; reflexivity.
    - crack E2; repeat match goal with |- context [if ?b then _ else _] => destruct b end; splits; reflexivity. }
  assert (C : forall x x' : dv, sim_check_connection (bs "+IPCLOSE: 0,") x = Ok x' -> fLine (fl x') = fLine (fl x) /\ toRead x' = toRead x /\ toReceive x' = toReceive x) by (intros x x' K; unfold sim_check_connection in K; crack K; repeat match goal with |- context [if ?b then _ else _] => destruct b end; splits; reflexivity).
  assert (B' : fLine (fl d2) = fLine (fl d) /\ toRead d2 = toRead d /\ toReceive d2 = toReceive d) by (destruct A1 as (? & ? & ?), B as (? & ? & ?); splits; congruence).
  destruct b; [injection E as _ <-; exact B'|]. destruct (_ <=? _); [|injection E as _ <-; exact B'].
  destruct (sim_check_connection _ d2) as [d3|] eqn:E3; [|discriminate E]. cbn [bind] in E. injection E as _ <-. destruct (C _ _ E3) as (? & ? & ?), B' as (? & ? & ?). splits; congruence.
Qed.

Definition s7_harmless (L : bytes) : Prop :=
  prefixb (bs "ERROR") L = false /\ prefixb (bs "+CIPRXGET: 1,0") L = false /\ prefixb (bs "+NETOPEN: 1") L = false /\ prefixb (bs "+CDNSGIP: 0") L = false /\ prefixb (bs "+IPCLOSE: 0,") L = false /\
  (prefixb (bs "+CIPOPEN: 0,") L = true -> prefixb (bs "+CIPOPEN: 0,0") L = true).

(** While the connection is opened, the expected reply ends waiting. *)
Lemma s7_line_cipopen : forall P d ret d' L, s7_handles P d ret d' L -> rst d = R7Cipopen -> wait d = Some (bs "+CIPOPEN: 0,0") -> s7_harmless L ->
  fReset (fl d') = fReset (fl d) /\ (rst d' = R7Cipopen -> wait d' = Some (bs "+CIPOPEN: 0,0")).
Proof.
  intros P d ret d' L (r & y & Hlen & _ & HI & E) Hr Hw (F1 & F2 & _ & _ & F4 & F3). change (fReset (fl d)) with (fReset (fl (line_at L r y d))).
  assert (HL : lbuf (line_at L r y d) = L ++ NUL :: r) by reflexivity.
  change (rst d) with (rst (line_at L r y d)) in *. change (wait d) with (wait (line_at L r y d)) in *. generalize dependent (line_at L r y d). clear d. intros d HI E Hr Hw HL.
  assert (C : forall x x' : dv, lbuf x = L ++ NUL :: r -> sim_check_connection (bs "+IPCLOSE: 0,") x = Ok x' -> x' = x).
  { intros x x' Hx K. unfold sim_check_connection in K. rewrite (lstarts_line L r x Hx Hlen) in K by (reflexivity || (cbn; lia)). cbn [bind] in K. rewrite F2 in K.
    rewrite (lstarts_line L r x Hx Hlen) in K by (reflexivity || (cbn; lia)). cbn [bind] in K. rewrite F4 in K. injection K as <-. reflexivity. }
  unfold s7_parse, s7_standard_reply in E. rewrite Hw in E. rewrite (lmatch_line L r d HL Hlen) in E by first [apply nulfree_of; assumption | reflexivity | cbn; lia]. cbn [bind] in E.
  destruct (prefixb (bs "+CIPOPEN: 0,0") L) eqn:E0.
  - cbn [bind] in E. unfold s7_special_reply in E. change (rst (set_wait None d)) with (rst d) in E. rewrite Hr in E. cbn [wait set_wait bind] in E.
    destruct (_ <=? _); [|injection E as _ <-; split; [reflexivity|intro Z; discriminate Z]].
    destruct (sim_check_connection _ _) as [d3|] eqn:E3; [|discriminate E]. cbn [bind] in E. injection E as _ <-. apply C in E3; [|exact HL]. subst d3. split; [reflexivity|intro Z; discriminate Z].
  - rewrite (lstarts_line L r d HL Hlen) in E by (reflexivity || (cbn; lia)). cbn [bind] in E. rewrite F1 in E. cbn [bind] in E.
    unfold s7_special_reply in E. rewrite Hr, Hw in E. rewrite (lstarts_line L r d HL Hlen) in E by (reflexivity || (cbn; lia)). cbn [bind] in E.
    destruct (prefixb (bs "+CIPOPEN: 0,") L); [discriminate (F3 eq_refl)|]. cbn [bind] in E.
    destruct (_ <=? _); [|injection E as _ <-; split; [reflexivity|intros _; exact Hw]].
    destruct (sim_check_connection _ _) as [d3|] eqn:E3; [|discriminate E]. cbn [bind] in E. injection E as _ <-. apply C in E3; [|exact HL]. subst d3. split; [reflexivity|intros _; exact Hw].
Qed.

Lemma s7_calm_run : forall P N r w x y d e d', s7_step P d e d' -> roomy N d e -> hears None e \/ hears (Some s7_harmless) e -> s7_calm r w x y d ->
  s7_calm r w x y d' /\ payload e = [].
Proof.
  intros P N r w x y d e d' Hs ((oo & Eo) & Ht) Hh HK. pose proof HK as (K1 & K2 & K3 & K4 & K5 & K6 & K7 & K8 & K9 & K10 & K10' & Kx & K11 & K12 & K13 & K13' & K14 & K15 & K16).
  destruct (s7_parts P d e d' oo Hs Eo K1 K3 K2) as (d1 & Hd & a & d2 & q & Hi & (HI & Hx) & Hr).
  assert (Hm : s7_calm r w x y d2).
  { destruct Hi as [tk E1 E2 E3 E4 E5 E6 E7 (E8 & E9 & E10 & E11 & E12 & E13) E14 E15 E16 E17 E18 E19 E20 E21 E22 E23 E24
      |tk1 tk2 E1 E2 E3 E4 E5 E6 E7 E8 E9 E10 E11 (E12 & E13 & E14 & E15 & E16 & E17) E18 E19 E20 E21 E22 E23 E24 E25 E26 E27
      |tk L E1 E2 E3 E4 E5 (E6 & E7 & E8 & E9 & E10 & E11) E12 E13 E14 E15].
    - destruct Hx as (_ & _ & _ & _ & _ & X & _). unfold s7_calm. rewrite E8, E9, E10, E14, E16, E17, E18, E20, E21, X. exact HK.
    - unfold s7_calm. change (toRead (during (e_sch e) d)) with (toRead d) in *. rewrite K4 in *. assert (T : toRead d2 = 0%Z) by lia. specialize (E26 T).
      destruct Hx as (X1 & X2 & _ & X3 & _ & X4 & _). rewrite E12, E13, E14, T, E11, X1, X2, X3, X4. assert (Hf : fl d2 = fl d) by (destruct E27 as [->| ->]; [reflexivity|]; change (fl (on_line true d) = fl d); clear - K6; destruct d as [? ? ? ? ? ? ? [? ? ? ? ? fn ?]]; cbn in *; subst fn; reflexivity).
      rewrite Hf. splits; auto.
    - assert (HL : s7_harmless L).
      { destruct Hh as [Hh|(tk' & L' & Hin & HL)]; [exfalso; apply (Hh tk L); destruct Hr as [[-> _]|(b & -> & _)]; left; reflexivity|].
        replace L with L'; [exact HL|]. destruct Hr as [(Ea & _)|(b & Ea & Hol & _)]; rewrite Ea in Hin; cbn [In] in Hin; destruct Hin as [Hin|Hin]; try (congruence || (exfalso; exact Hin)).
        exfalso. destruct Hin as [->|[]]. inversion Hol. }
      pose proof HL as (L1 & L2 & L3 & L4 & _ & L5). destruct Hx as [(_ & _ & (Hf1 & Hf2 & Hf3) & _ & _ & _ & _ & Hf4 & _ & (_ & Hf7 & _) & _ & Hf5 & _ & Hf6) Hx].
      destruct (s7_line_kept P _ _ _ _ Hx K9 K10) as (X1 & X2 & X3). pose proof (s7_line_cipopen P _ _ _ _ Hx) as X4.
      change (rst (during (e_sch e) d)) with (rst d) in *. change (wait (during (e_sch e) d)) with (wait d) in *. change (fl (during (e_sch e) d)) with (fl d) in *.
      change (toRead (during (e_sch e) d)) with (toRead d) in *. change (toReceive (during (e_sch e) d)) with (toReceive d) in *.
      assert (S : sst d2 = sst d) by (destruct (s7_line_moved P _ _ _ _ Hx) as [S|[(_ & S & _)|(S & _)]]; [exact S|congruence|contradiction]).
      assert (F : fReset (fl d2) = false).
      { destruct Hf4 as [F|[_ [[_ F]|[[F _]|[_ F]]]]]; try congruence. rewrite <- K2. apply (X4 F (K10' F) HL). }
      assert (Fd : fData (fl d2) = false) by (destruct Hf5 as [F5|[_ F5]]; congruence).
      unfold s7_calm. rewrite E6, E7, E8, Hf7, S, F, X1, X2, X3, Fd, Hf1, Hf2, Hf3. cbn [during set_io isopen rbuf wbuf ext].
      splits; auto.
      + destruct Hf6 as [->| ->]; [exact K9|discriminate].
      + destruct Hf6 as [->| ->]; [exact K10|discriminate].
      + intro R. destruct Hf6 as [R'|R']; [|congruence]. rewrite R in R'. symmetry in R'. exact (proj2 (X4 R' (K10' R') HL) R). }
  assert (Pa : act_payload a = []) by (destruct Hi; reflexivity).
  destruct Hr as [(Ea & -> & Er)|(b & Ea & Hol & Hox)].
  - rewrite Hd. split; [apply s7_calm_io; exact Hm|]. unfold payload. rewrite Ea. cbn [map concat]. rewrite Pa. reflexivity.
  - rewrite Hd. destruct Hox as (I2 & _ & Eq). split.
    + apply s7_calm_io. pose proof (s7_calm_output r w x y d2 I2 Hm) as W. rewrite Eq in W. exact W.
    + unfold payload. rewrite Ea. cbn [map concat]. rewrite Pa. destruct Hm as (_ & _ & _ & M & _). destruct Hol; try reflexivity. exfalso. lia.
Qed.

(** A connection is asked for by connect() only. *)
Definition s7_unasked (d : dv) : Prop := fConnect (fl d) = false.
Lemma s7_unasked_output : forall d, s7_inv d -> s7_unasked d -> wp True (s7_output d) s7_unasked.
Proof.
  intros d H HK. unfold s7_output. destruct (wait d) eqn:Ew; [exact HK|]. destruct (rst d) eqn:Er; cbn [r7_ok negb]; try exact HK.
  unfold s7_unasked in *. open_inv d H. subst. cbn [fl fConnect wait rst] in *. subst. syms.
  all: try exact I.
  all: try (match goal with |- wp _ (s7_machine _) _ =>
       unfold s7_machine, s7_connected, s7_send_cipopen, at_handle_connect, at_handle_disconnect; gs; destruct ss0; gs; syms end).
  all: try exact I.
  all: cases; gs; auto.
  all: apply Hipn; [left; cbn; lia|discriminate].
Qed.
Lemma s7_unasked_step : forall P d e d', s7_step P d e d' -> looks (e_op e) = true \/ (exists oo, e_op e = OpRun oo) -> s7_unasked d -> s7_unasked d'.
Proof.
  intros P d e d' Hs [Hl|(oo & Eo)] H.
  - destruct (s7_look P d e d' Hs Hl) as [-> _]. exact H.
  - destruct (s7_run_cases P d e d' oo Hs Eo) as (d1 & -> & [(_ & _ & [->|[->| ->]])|[(q & _ & _ & _ & (_ & _ & _ & R & _))|(_ & _ & _ & a & d2 & r & Hi & (_ & Hx) & Hr)]]); try exact H.
    + unfold s7_unasked. change (fConnect (fl d1) = false). rewrite R. reflexivity.
    + assert (M : s7_unasked d2).
      { unfold s7_unasked in *. transitivity (fConnect (fl (during (e_sch e) d))); [|exact H]. destruct a; unfold s7_same, s7_ictl in Hx; tauto. }
      destruct Hr as [(_ & ->)|(b & _ & _ & (I2 & _ & Eq))]; [exact M|].
      pose proof (s7_unasked_output d2 I2 M) as W. rewrite Eq in W. exact W.
Qed.
