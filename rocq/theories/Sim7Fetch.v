(** The SIM7x00 driver fetches what the modem reports, if the modem answers. *)
From Coq Require Import String Ascii ZArith List Bool Arith Lia ZifyBool ZifyNat.
From Verif Require Import Base QueueSpec LineSpec SerialSpec Ring RingProofs LineRing LineRingProofs Serial SerialProofs
  SerStep TaskMacros CStr CStrProofs Dev DevProofs SimDev SimProofs SimSpec SimParse SimLog Sym DrvStep DrvCommon DrvRun DrvHist DrvActs DrvStuck DrvHand SimHand DrvFetch
  Sim7x00 Sim7Spec Sim7Proofs Sim7Ctl Sim7CtlIn Sim7Run Sim7Hist Sim7Thms Sim7More Sim7Line Sim7Req Sim7Rest Sim7Stuck Sim7Hand.
Import ListNotations.
Local Open Scope nat_scope.
Ltac Zify.zify_post_hook ::= Z.div_mod_to_equations.
Local Notation dv := (dev s7send s7reply simx).
Local Notation ent := (@entry simop).
Local Notation olab7 := (olab r7_ok s7_says s7_tail s7_insend true).

(** Lines that say nothing about errors, data or the end of the connection. *)
Definition s7_hum (L : bytes) : Prop :=
  Forall (fun s => prefixb (bs s) L = false) ["OK"; "ERROR"; "+CIPRXGET:"; "+IPCLOSE: 0,"]%string.
Lemma s7_hum_inv : forall L, s7_hum L -> prefixb (bs "OK") L = false /\ prefixb (bs "ERROR") L = false /\ prefixb (bs "+CIPRXGET: 1,0") L = false /\
  prefixb (bs "+CIPRXGET: 4,0,") L = false /\ prefixb (bs "+CIPRXGET: 2,0,") L = false /\ prefixb (bs "+IPCLOSE: 0,") L = false.
Proof.
  intros L H. unfold s7_hum in H. repeat match goal with H : Forall _ (_ :: _) |- _ => apply Forall_cons_iff in H as [? H] end.
  splits; auto; [exact (no_prefix (bs "+CIPRXGET:") (bs " 1,0") L H2)|exact (no_prefix (bs "+CIPRXGET:") (bs " 4,0,") L H2)|exact (no_prefix (bs "+CIPRXGET:") (bs " 2,0,") L H2)].
Qed.

(** What a line does to the driver while it fetches data. *)
Definition s7_hear (P : plat) (L : bytes) (d : dv) : dv :=
  let v := i32 (number P (skipn 15 L)) in
  let x := set_wait (s7_wait_after L (wait d)) d in
  let x := match rst d with
    | R7Ciprxget4 => if prefixb (bs "+CIPRXGET: 4,0,") L then set_rst R7Ok (set_toReceive (u64 (toReceive x + v)) x) else x
    | R7Ciprxget2 => if prefixb (bs "+CIPRXGET: 2,0,") L
        then set_sst S7Receiving (set_rst R7Ok (on_line false (set_toRead (u64 (toRead x + v)) (set_toReceive (u64 (toReceive x - v)) x)))) else x
    | _ => x
    end in
  if prefixb (bs "+CIPRXGET: 1,0") L then on_data true x else x.
Definition s7_fetches (d : dv) : Prop :=
  (rst d = R7Ok \/ rst d = R7Ciprxget4 \/ rst d = R7Ciprxget2) /\ s7_rank S7Connected <= s7_rank (sst d).

Lemma s7_line_hear : forall P d ret d' L, s7_handles P d ret d' L -> s7_fetches d -> prefixb (bs "ERROR") L = false -> prefixb (bs "+IPCLOSE: 0,") L = false ->
  ret = false /\ exists r y, d' = s7_hear P L (line_at L r y d).
Proof.
  intros P d ret d' L (r & y & Hlen & _ & HI & E) Hf F1 F4.
  cut (ret = false /\ d' = s7_hear P L (line_at L r y d)). { intros [? ?]. split; [assumption|]. exists r, y. assumption. }
  set (x := line_at L r y d) in *. assert (HL : lbuf x = L ++ NUL :: r) by reflexivity.
  assert (Hf' : s7_fetches x) by exact Hf. clearbody x. clear Hf y d. rename x into d. rename Hf' into Hf. destruct Hf as [He Hk].
  pose proof HI as ((_ & _ & _ & _ & _ & _ & _ & _ & _ & Hwt & _) & Hip & Hid & _).
  unfold s7_parse in E. unfold s7_hear. set (w := s7_wait_after L (wait d)) in *.
  assert (Hs : s7_standard_reply d = Ok (false, set_wait w d)).
  { unfold s7_standard_reply. unfold w, s7_wait_after. destruct (wait d) as [v|] eqn:Ew.
    - destruct Hwt as [Hw1 Hw2]. rewrite (lmatch_line L r d HL Hlen) by first [apply nulfree_of; assumption | lia]. cbn [bind].
      destruct (prefixb v L); [reflexivity|]. rewrite (lstarts_line L r d HL Hlen) by (reflexivity || (cbn; lia)). cbn [bind]. rewrite F1. rewrite <- Ew. destruct d; reflexivity.
    - rewrite <- Ew. destruct d; reflexivity. }
  rewrite Hs in E. cbn [bind] in E. clear Hs.
  assert (Hc : forall d2 : dv, lbuf d2 = lbuf d -> s7_rank S7Connected <= s7_rank (sst d2) ->
    (if s7_rank S7Connected <=? s7_rank (sst d2) then let* z := sim_check_connection (bs "+IPCLOSE: 0,") d2 in Ok (false, z) else Ok (false, d2))%res =
    Ok (false, if prefixb (bs "+CIPRXGET: 1,0") L then on_data true d2 else d2)).
  { intros d2 Hd2 Hr2. apply Nat.leb_le in Hr2. rewrite Hr2. rewrite (check_line L r d2 ltac:(congruence) Hlen) by (reflexivity || (cbn; lia)). rewrite F4. reflexivity. }
  set (d1 := set_wait w d) in *. assert (HL1 : lbuf d1 = L ++ NUL :: r) by exact HL.
  unfold s7_special_reply in E. change (rst d1) with (rst d) in E.
  destruct He as [Er|[Er|Er]]; rewrite Er in *; cbn [bind] in E.
  - rewrite Hc in E by (reflexivity || exact Hk). apply ok_inj in E. apply pair_eq in E as [<- <-]. split; reflexivity.
  - rewrite (ciprxget4_line P L r d1 HL1 Hlen) in E. destruct (prefixb (bs "+CIPRXGET: 4,0,") L); cbn [bind] in E;
      rewrite Hc in E by (reflexivity || exact Hk); apply ok_inj in E; apply pair_eq in E as [<- <-]; split; reflexivity.
  - rewrite (ciprxget2_line P L r d1 HL1 Hlen) in E. destruct (prefixb (bs "+CIPRXGET: 2,0,") L); cbn [bind] in E;
      rewrite Hc in E by (reflexivity || exact Hk || (cbn; lia)); apply ok_inj in E; apply pair_eq in E as [<- <-]; split; reflexivity.
Qed.

Definition s7_put_says (e : ent) (x d1 : dv) : Prop := forall t q, ioeff (io x) (io d1) t q -> put (e_ev e) = q /\ payload e = t.

Lemma s7_says_puts : forall P d e d' a b x d1, s7_step P d e d' -> (exists oo, e_op e = OpRun oo) -> e_acts e = [a; b] -> act_put a = [] -> act_payload a = [] -> olab7 x d1 b -> s7_put_says e x d1.
Proof.
  intros P d e d' a b x d1 Hs (oo & Eop) Ea Ha Hb Ho t q Hi. destruct Hs as (_ & _ & _ & _ & _ & _ & Hio & _). unfold call_io in Hio. rewrite Eop in Hio. destruct Hio as [_ ->].
  unfold payload. rewrite Ea. unfold acts_put. cbn [map concat]. rewrite Ha, Hb, !app_nil_r. cbn [app]. split.
  - refine (olab_put _ _ _ _ _ _ _ _ x d1 b t q _ Ho Hi). intros z Hz. destruct (olab_io (s7_shape P) _ _ _ Hz) as (ev & T1 & _ & T2 & _). eauto.
  - exact (olab_taken _ _ _ _ _ _ _ _ _ _ _ _ _ Ho Hi).
Qed.

Lemma s7_turn_none : forall P N d e d', s7_step P d e d' -> roomy N d e -> hears None e -> s7_going d -> fDisc (fl d) = false ->
  exists x d1, s7_inv x /\ shell d x /\ (fLine (fl d) = true -> rxav (io x) = 0) /\ (e_sch e = [] -> sched (io x) = []) /\ txav (io x) + N <= txsz (io x) /\ rxsz (io x) = rxsz (io d) /\
    s7_output x = Ok d1 /\ d' = set_io (io d') d1 /\ s7_put_says e x d1.
Proof.
  intros P N d e d' Hs ((oo & Eo) & Ht) Hn (H1 & H2 & H3 & _) Hdi.
  destruct (s7_parts P d e d' oo Hs Eo H1 H3 H2) as (d1 & Hd & a & d2 & r & Hi & [HI Hx] & Hr).
  assert (Htx : txav (io d2) <= txav (io d)) by exact (ilab_tx (s7_shape P) _ _ _ _ Hi).
  destruct (ilab_io (s7_shape P) _ _ _ _ Hi) as (ev & Hst & _).
  assert (Hna : forall tk L, a <> aLine tk L) by (intros tk L ->; apply (Hn tk L); destruct Hr as [[-> _]|(b & -> & _)]; left; reflexivity).
  assert (Hsh : r = false /\ shell d d2 /\ (fLine (fl d) = true -> rxav (io d2) = 0) /\ act_put a = [] /\ act_payload a = []).
  { destruct Hi as [tk E1 E2 E3 E4 E5 E6 E7 (E8 & E9 & E10 & E11 & E12 & E13) E14 E15 E16 E17 E18 E19 E20 E21 E22 E23 E24|tk1 tk2 E1 E2|tk L]; [|exfalso; change (fDisc (fl d) = true) in E2; congruence|exfalso; eapply Hna; reflexivity].
    splits; auto. clear - E8 E9 E10 E11 E12 E13 E14 E15 E16 E17 E18 E19 E20 E21 E22 E23 E24.
    unfold shell, set_io, set_lbfill, set_lbuf. cbn. change (during (e_sch e) d) with (set_io (mkSys (ser (io d)) (e_sch e) []) d) in *. cbn in *.
    rewrite <- E8, <- E9, <- E10, <- E11, <- E12, <- E13, <- E14, <- E15, <- E16, <- E17, <- E18, <- E19, <- E20, <- E21, <- E22, <- E23, <- E24. destruct d2; reflexivity. }
  destruct Hsh as (-> & Hsh & Hrx & Pa & Pb).
  destruct Hr as [(_ & _ & Z)|(b & Ea & Hol & Hox)]; [discriminate Z|]. destruct Hox as (I2 & _ & Eq).
  exists d2, d1. splits; auto.
  - intro Z. destruct Hst as (_ & _ & _ & _ & _ & _ & Hst). apply Hst. exact Z.
  - rewrite (sstep_txsz _ _ _ Hst). change (txsz (io (during (e_sch e) d))) with (txsz (io d)). lia.
  - exact (sstep_rxsz _ _ _ Hst).
  - exact (s7_says_puts P d e d' a b d2 d1 Hs (ex_intro _ oo Eo) Ea Pa Pb Hol).
Qed.

Lemma s7_turn_line : forall P N d e d' q, s7_step P d e d' -> roomy N d e -> hears (Some q) e -> s7_going d -> s7_fetches d ->
  (forall L, q L -> prefixb (bs "ERROR") L = false /\ prefixb (bs "+IPCLOSE: 0,") L = false) ->
  exists x d1 L, q L /\ shell d x /\ s7_inv (s7_hear P L x) /\ fLine (fl d) = true /\ txav (io x) + N <= txsz (io x) /\ rxsz (io x) = rxsz (io d) /\
    s7_output (s7_hear P L x) = Ok d1 /\ d' = set_io (io d') d1 /\ s7_put_says e (s7_hear P L x) d1.
Proof.
  intros P N d e d' q Hs ((oo & Eo) & Ht) (tk & L & Hin & HL) (H1 & H2 & H3 & _) He Hq.
  destruct (s7_parts P d e d' oo Hs Eo H1 H3 H2) as (d1 & Hd & a & d2 & r & Hi & [HI Hx] & Hr).
  assert (Htx : txav (io d2) <= txav (io d)) by exact (ilab_tx (s7_shape P) _ _ _ _ Hi).
  destruct (ilab_io (s7_shape P) _ _ _ _ Hi) as (ev & Hst & _).
  assert (Ha : a = aLine tk L).
  { destruct Hr as [(Ea & _)|(b & Ea & Hol & _)]; rewrite Ea in Hin; cbn [app] in Hin; destruct Hin as [<-|Hin]; auto; [destruct Hin|].
    destruct Hin as [->|[]]. exfalso. inversion Hol. }
  subst a. destruct Hx as [_ Hx]. destruct (Hq L HL) as [Q1 Q2].
  assert (Hln : fLine (fl d) = true) by (inversion Hi; assumption).
  destruct (s7_line_hear P _ r d2 L Hx He Q1 Q2) as (Er & r0 & y & Ed2).
  destruct Hr as [(_ & _ & ->)|(b & Ea & Hol & Hox)]; [discriminate Er|].
  destruct Hox as (I2 & _ & Eq). exists (line_at L r0 y d), d1, L.
  assert (Hio : forall x, io (s7_hear P L x) = io x) by (intro x; unfold s7_hear; repeat match goal with |- context [match ?c with _ => _ end] => destruct c end; reflexivity).
  change (line_at L r0 y (during (e_sch e) d)) with (line_at L r0 y d) in Ed2. rewrite <- Ed2. splits; auto.
  - reflexivity.
  - rewrite <- Hio, <- Ed2, (sstep_txsz _ _ _ Hst). change (txsz (io (during (e_sch e) d))) with (txsz (io d)). lia.
  - rewrite <- Hio, <- Ed2. exact (sstep_rxsz _ _ _ Hst).
  - exact (s7_says_puts P d e d' (aLine tk L) b d2 d1 Hs (ex_intro _ oo Eo) Ea eq_refl eq_refl Hol).
Qed.

(** *** What a run() does, in general *)
Definition heard (P : plat) (o : option bytes) (d : dv) : dv := match o with Some L => s7_hear P L d | None => d end.
Definition heard_as (p : option (bytes -> Prop)) (o : option bytes) : Prop :=
  match p, o with Some q, Some L => q L | None, None => True | _, _ => False end.
Lemma s7_turns : forall P N d e d' p, s7_step P d e d' -> roomy N d e -> hears p e -> s7_going d -> fDisc (fl d) = false -> s7_fetches d ->
  (forall q L, p = Some q -> q L -> prefixb (bs "ERROR") L = false /\ prefixb (bs "+IPCLOSE: 0,") L = false) ->
  exists o x d1, heard_as p o /\ shell d x /\ s7_inv (heard P o x) /\ (o <> None -> fLine (fl d) = true) /\
    (o = None -> fLine (fl d) = true -> rxav (io x) = 0) /\ (o = None -> e_sch e = [] -> sched (io x) = []) /\ txav (io x) + N <= txsz (io x) /\ rxsz (io x) = rxsz (io d) /\
    s7_output (heard P o x) = Ok d1 /\ d' = set_io (io d') d1 /\ s7_put_says e (heard P o x) d1.
Proof.
  intros P N d e d' p Hs Hr Hh Hg Hdi Hf Hq. destruct p as [q|].
  - destruct (s7_turn_line P N d e d' q Hs Hr Hh Hg Hf (fun L => Hq q L eq_refl)) as (x & d1 & L & A1 & A2 & A3 & A4 & A5 & A6 & A7 & A8 & A9).
    exists (Some L), x, d1. cbn [heard heard_as]. splits; auto; discriminate.
  - destruct (s7_turn_none P N d e d' Hs Hr Hh Hg Hdi) as (x & d1 & A1 & A2 & A3 & A4 & A5 & A6 & A7 & A8 & A9).
    exists None, x, d1. cbn [heard heard_as]. splits; auto.
Qed.
Lemma s7_hear_hum : forall P L (x : dv), s7_hum L -> wait x = None \/ wait x = Some (bs "OK") -> s7_hear P L x = x.
Proof.
  intros P L x H Hw. apply s7_hum_inv in H as (H0 & H1 & H2 & H3 & H4 & H5). unfold s7_hear. rewrite H2, H3, H4.
  assert (s7_wait_after L (wait x) = wait x) as -> by (destruct Hw as [->| ->]; cbn [s7_wait_after]; rewrite ?H0; reflexivity).
  destruct (rst x); destruct x; reflexivity.
Qed.
Lemma s7_turns_aside : forall P N d e d' q, s7_step P d e d' -> roomy N d e -> aside s7_hum q e -> s7_going d -> fDisc (fl d) = false -> s7_fetches d ->
  wait d = None \/ wait d = Some (bs "OK") ->
  exists x d1, shell d x /\ s7_inv x /\ txav (io x) + N <= txsz (io x) /\ rxsz (io x) = rxsz (io d) /\
    s7_output x = Ok d1 /\ d' = set_io (io d') d1 /\ s7_put_says e x d1.
Proof.
  intros P N d e d' q Hs Hr Ha Hg Hdi Hf Hw.
  assert (H : exists o x d1, (match o with Some L => s7_hum L | None => True end) /\ shell d x /\ s7_inv (heard P o x) /\ txav (io x) + N <= txsz (io x) /\ rxsz (io x) = rxsz (io d) /\
    s7_output (heard P o x) = Ok d1 /\ d' = set_io (io d') d1 /\ s7_put_says e (heard P o x) d1).
  { destruct Ha as [Ha|Ha].
    - destruct (s7_turns P N d e d' _ Hs Hr Ha Hg Hdi Hf ltac:(discriminate)) as (o & x & d1 & A0 & A1 & A2 & _ & _ & _ & A3 & A4 & A5 & A6 & A7).
      exists o, x, d1. splits; auto. destruct o; [destruct A0|exact I].
    - destruct (s7_turns P N d e d' _ Hs Hr Ha Hg Hdi Hf) as (o & x & d1 & A0 & A1 & A2 & _ & _ & _ & A3 & A4 & A5 & A6 & A7).
      { intros q0 L E HL. apply some_eq in E. subst q0. destruct HL as [HL _]. apply s7_hum_inv in HL as (_ & H1 & _ & _ & _ & H5). split; assumption. }
      exists o, x, d1. splits; auto. destruct o; [apply A0|exact I]. }
  destruct H as (o & x & d1 & A0 & A1 & A2 & A3 & A4 & A5 & A6 & A7).
  assert (Eo : heard P o x = x). { destruct o as [L|]; [|reflexivity]. apply s7_hear_hum; [exact A0|]. rewrite A1. exact Hw. }
  rewrite Eo in *. exists x, d1. splits; auto.
Qed.

Lemma s7_still : forall e (x d1 : dv), s7_inv x -> s7_output x = Ok d1 -> s7_pending x -> s7_put_says e x d1 -> d1 = x /\ put (e_ev e) = [] /\ payload e = [].
Proof.
  intros e x d1 ((Hw & _) & _) Ho Hp Hs. pose proof (s7_pending_output x d1 Ho Hp) as ->. split; [reflexivity|]. apply Hs. apply ioeff_refl. exact Hw.
Qed.
Lemma s7_free : forall N e (x d1 : dv), s7_inv x -> s7_output x = Ok d1 -> wait x = None -> rst x = R7Ok -> s7_going x -> txav (io x) + N <= txsz (io x) -> 20 <= N -> s7_put_says e x d1 ->
  exists y, quiet (io x) y /\ s7_inv (set_io y x) /\ txav y + N <= txsz y /\ s7_machine (set_io y x) = Ok d1 /\ s7_put_says e (set_io y x) d1 /\ (sched (io x) = [] -> y = io x).
Proof.
  intros N e x d1 HI Ho Hw Hr Hg Ht HN Hs.
  assert (H : exists y, quiet (io x) y /\ s7_machine (set_io y x) = Ok d1 /\ (sched (io x) = [] -> y = io x)).
  { destruct (sched (io x)) as [|i l] eqn:Es.
    - destruct (s7_free_output x d1 HI Ho Hw Hr Hg ltac:(lia)) as (y0 & Q0 & Hm0). pose proof HI as ((Hwf & _) & _ & Hid & _). destruct Hg as (_ & _ & _ & K11 & K12).
      destruct (isr_point_quiet (io x) Hwf) as (y & E & Q). exists y. split; [exact Q|]. pose proof (quiet_still _ _ Es E) as ->. split; [|auto].
      unfold s7_output in Ho. rewrite Hw, Hr in Ho. cbn [r7_ok negb] in Ho. unfold d_space, s_space_available in Ho. rewrite E in Ho. cbn [bind] in Ho.
      change (ring_space (lr (stx (ser (io x))))) with (txsz (io x) - txav (io x)) in Ho.
      destruct (Nat.ltb_spec (txsz (io x) - txav (io x)) 20) as [Hlt|Hge]; [exfalso; lia|].
      change (rssi (set_io (io x) x)) with (rssi x) in Ho.
      destruct (Z.eqb_spec (rssi x) INT16_MAX); [contradiction|]. cbn [andb] in Ho. rewrite (no_id_request _ _ _ (set_io (io x) x) K12 Hid) in Ho. cbn [bind] in Ho. exact Ho.
    - destruct (s7_free_output x d1 HI Ho Hw Hr Hg ltac:(lia)) as (y & Q & Hm). exists y. splits; auto. discriminate. }
  destruct H as (y & Q & Hm & Hst).
  pose proof (quiet_ioeff _ _ Q) as QI. pose proof (ioeff_av _ _ _ _ QI) as [_ A]. pose proof (ioeff_txsz _ _ _ _ QI) as A2. cbn [length] in A.
  exists y. splits; auto; [split; [apply dok_quiet; [apply HI|exact Q]|apply HI]|lia|].
  intros t q Hi. apply Hs. exact (ioeff_trans _ _ _ _ _ _ _ QI Hi).
Qed.

(** *** The stages of a fetch *)
Definition s7_ctl (x : dv) := (sst x, rst x, wait x, toReceive x, toRead x, fLine (fl x)).
Definition s7_kept (d x : dv) : Prop :=
  s7_going x /\ (fIp (fl x), fDisc (fl x), fData (fl x)) = (true, false, false) /\ ip_is_connected x = true /\
  (ext x, wbuf x, typ x, host x, port x) = (ext d, wbuf d, typ d, host d, port d).
Definition s7_on (d : dv) c r (x : dv) : Prop := s7_kept d x /\ s7_ctl x = c /\ rbuf x = r.
Lemma s7_on_shell : forall d c r x x', s7_on d c r x -> shell x x' -> s7_on d c r x'.
Proof. intros d c r x x' H ->. exact H. Qed.
Lemma s7_on_io : forall d c r y x, s7_on d c r x -> s7_on d c r (set_io y x).
Proof. intros d c r y x H. exact H. Qed.

Definition s7_get4 : bytes := bs "AT+CIPRXGET=4,0".
(** The request for [k] bytes. *)
Definition s7_get2 (k : Z) : bytes := bs "AT+CIPRXGET=2,0," ++ dec k.
Definition s7_c0 := (S7Connected, R7Ok, @None bytes, 0%Z, 0%Z, true).
Definition s7_c1 (n : Z) := (S7SendCiprxget4, R7Ok, @None bytes, n, 0%Z, true).
Definition s7_c2 (n : Z) := (S7SendCiprxget2, R7Ciprxget4, Some (bs "OK"), n, 0%Z, true).
Definition s7_c3 (n : Z) := (S7SendCiprxget2, R7Ok, Some (bs "OK"), n, 0%Z, true).
Definition s7_c4 (n : Z) := (S7SendCiprxget2, R7Ok, @None bytes, n, 0%Z, true).
Definition s7_c5 (n : Z) := (S7WaitReceive, R7Ciprxget2, @None bytes, n, 0%Z, true).
Definition s7_c6 (n m : Z) := (S7Receiving, R7Ok, @None bytes, n, m, false).
Definition s7_c7 (n : Z) := (S7Receiving, R7Ok, Some (bs "OK"), n, 0%Z, true).
Definition s7_c8 (n : Z) := (S7Receiving, R7Ok, @None bytes, n, 0%Z, true).

Ltac on_inv H := let K := fresh "K" in let C := fresh "C" in let R := fresh "R" in
  pose proof H as (K & C & R); unfold s7_ctl, s7_c0, s7_c1, s7_c2, s7_c3, s7_c4, s7_c5, s7_c6, s7_c7, s7_c8 in C; 
  let Cl := fresh "Cl" in apply pair_eq in C as [C Cl]; let Cm := fresh "Cm" in apply pair_eq in C as [C Cm]; let Cn := fresh "Cn" in apply pair_eq in C as [C Cn];
  let Cw := fresh "Cw" in apply pair_eq in C as [C Cw]; let Cr := fresh "Cr" in apply pair_eq in C as [C Cr]; let Cs := fresh "Cs" in rename C into Cs.

Lemma s7_connected_idle : forall d r (x d1 : dv), s7_on d s7_c0 r x -> avail (wbuf d) = 0 -> s7_machine x = Ok d1 -> io d1 = io x /\ s7_on d s7_c0 r d1.
Proof.
  intros d r x d1 H Ha Hm. on_inv H. destruct K as (G & F & I & E). injection F as F1 F2 F3. injection E as E1 E2 E3 E4 E5.
  unfold s7_machine in Hm. rewrite Cs in Hm. unfold s7_connected in Hm. rewrite E2, Ha, F3 in Hm. unfold at_handle_disconnect in Hm. cbn [fl set_cst] in Hm. rewrite F2 in Hm. cbn [Nat.ltb Nat.leb snd] in Hm.
  apply ok_inj in Hm. subst d1. split; [reflexivity|]. split; [|split; [exact (proj1 (proj2 H))|exact R]]. unfold s7_kept. splits; try reflexivity; try assumption; cbn [fl ext wbuf typ host port set_cst]; congruence.
Qed.
Lemma s7_connected_data : forall d r (x d1 : dv), s7_on d s7_c0 r x -> avail (wbuf d) = 0 -> s7_machine (on_data true x) = Ok d1 -> io d1 = io x /\ s7_on d (s7_c1 0) r d1.
Proof.
  intros d r x d1 H Ha Hm. on_inv H. destruct K as (G & F & I & E). injection F as F1 F2 F3. injection E as E1 E2 E3 E4 E5.
  unfold s7_machine in Hm. change (sst (on_data true x)) with (sst x) in Hm. rewrite Cs in Hm. unfold s7_connected in Hm. change (wbuf (on_data true x)) with (wbuf x) in Hm. rewrite E2, Ha in Hm. cbn [Nat.ltb Nat.leb fl on_data fData] in Hm.
  apply ok_inj in Hm. subst d1. split; [reflexivity|]. split; [|split; [|exact R]].
  - unfold s7_kept. splits; try reflexivity; try assumption; cbn; congruence.
  - unfold s7_ctl, s7_c1. cbn. congruence.
Qed.
Lemma s7_asks_count : forall d n r (x : dv), s7_inv x -> s7_on d (s7_c1 n) r x ->
  wp True (s7_machine x) (fun d1 => wroteb (io x) (io d1) (s7_get4 ++ [CR; LF]) /\ s7_on d (s7_c2 n) r d1).
Proof.
  intros d n r x HI H. on_inv H. destruct HI as ((Hw & _) & _). unfold s7_machine. rewrite Cs. apply wp_send_command; [exact Hw|]. intros y W. split; [exact W|].
  split; [exact K|]. split; [|exact R]. unfold s7_ctl, s7_c2. cbn. congruence.
Qed.
(** The request; [a]: the bytes in the port's receive buffer when its size was chosen. *)
Definition s7_wants (d : dv) (n : Z) (a : nat) (r : ring ascii) : Z :=
  Z.min (Z.min (Z.min (u64 (Z.of_nat (rxsz (io d)) - Z.of_nat a - 8)) n) (Z.of_nat (ring_space r))) (maxrx (ext d)).
Lemma s7_asks_data : forall d n r (x : dv), s7_inv x -> s7_on d (s7_c4 n) r x -> rxsz (io x) = rxsz (io d) ->
  wp True (s7_machine x) (fun d1 =>
    (n = 0%Z /\ io d1 = io x /\ s7_on d s7_c0 r d1) \/
    ((0 < n)%Z /\ ioeff (io x) (io d1) [] [] /\ s7_on d (s7_c4 n) r d1 /\ (sched (io x) = [] -> rxsz (io x) - rxav (io x) <= 8 \/ ring_space r = 0)) \/
    ((0 < n)%Z /\ s7_on d (s7_c5 n) r d1 /\ exists a, a <= rxsz (io d) /\ wroteb (io x) (io d1) (s7_get2 (s7_wants d n a r) ++ [CR; LF]) /\
       (sched (io x) = [] -> a = rxav (io x) /\ a + 8 < rxsz (io d)))).
Proof.
  intros d n r x HI H Hrx. on_inv H. destruct K as (G & F & I & E). injection F as F1 F2 F3. injection E as E1 E2 E3 E4 E5.
  pose proof HI as ((Hw & Hfr & _ & _ & _ & _ & _ & _ & _ & _ & _ & Hto & _) & _ & _ & Hmx & _).
  unfold s7_machine. rewrite Cs. unfold at_handle_disconnect. rewrite F2. rewrite Cn in *.
  destruct (Z.ltb_spec 0 n) as [Hn|Hn].
  - apply wp_bind. apply wp_send_ciprxget2_still; [exact Hw|exact Hfr|lia|lia| |].
    + intros y Hy Hz. cbn [wp]. right. left. rewrite R in Hz. splits; auto.
    + intros y1 y k Hy Hwr Hsp Hk Hz. cbn [wp]. right. right. split; [exact Hn|]. split.
      * split; [exact (proj1 H)|]. split; [|exact R]. unfold s7_ctl, s7_c5. cbn. congruence.
      * exists (rxav y1). rewrite R, Hrx, E1, Cn in *. fold (s7_wants d n (rxav y1) r) in Hk.
        assert (W1 : serial_wf (ser y1)) by exact (ioeff_wf _ _ _ _ Hy). pose proof (rx_le _ W1) as R1. destruct (ioeff_caps _ _ _ _ Hy) as [C1 _].
        split; [lia|]. split; [|intro Hs; destruct (Hz Hs) as [-> ?]; split; [reflexivity|lia]].
        rewrite <- Hk. unfold s7_get2. rewrite <- app_assoc. exact (wroteb_ioeff _ _ _ _ Hy Hwr).
  - cbn [wp]. left. rewrite F1. split; [lia|]. split; [reflexivity|]. split; [exact (proj1 H)|]. split; [|exact R]. unfold s7_ctl, s7_c0. cbn. replace n with 0%Z in * by lia. congruence.
Qed.
(** Payload is taken from the port when all of it has arrived. *)
Lemma s7_takes : forall d n m r (x : dv), s7_inv x -> s7_on d (s7_c6 n m) r x -> (0 < m)%Z -> ring_ok r -> (Z.of_nat (avail r) + m <= Z.of_nat (rsize r))%Z ->
  wp True (s7_machine x) (fun d1 =>
    (ioeff (io x) (io d1) [] [] /\ s7_on d (s7_c6 n m) r d1) \/
    (exists tk r', ioeff (io x) (io d1) tk [] /\ Z.of_nat (length tk) = m /\ ring_ok r' /\ contents r' = contents r ++ tk /\ rsize r' = rsize r /\ s7_on d (s7_c7 n) r' d1)).
Proof.
  intros d n m r x HI H Hm Hok Hfit. on_inv H. pose proof HI as ((Hw & _ & _ & Hrw & Hrs & _) & _).
  unfold s7_machine. rewrite Cs, Cm. destruct (Z.ltb_spec 0 m); [|lia]. apply wp_bind. rewrite <- Cm in *. apply wp_receive; [exact Hw|exact Hrw|exact Hrs|lia| |].
  - intros y Hy _. cbn [wp]. left. split; [exact Hy|exact H].
  - intros y tk r' Hy Hl Hw' Hz Hc. cbn [wp]. right. rewrite R in *. destruct (Hc Hok ltac:(lia)) as [O1 O2]. exists tk, r'. splits; auto.
    split; [exact (proj1 H)|]. split; [|reflexivity]. unfold s7_ctl, s7_c7. cbn. congruence.
Qed.
Lemma s7_goes_on : forall d n r (x d1 : dv), s7_on d (s7_c8 n) r x -> (0 <= n)%Z -> s7_machine x = Ok d1 ->
  io d1 = io x /\ s7_on d (if (0 <? n)%Z then s7_c4 n else s7_c1 0) r d1.
Proof.
  intros d n r x d1 H Hn Hm. on_inv H. unfold s7_machine in Hm. rewrite Cs, Cm, Cn in Hm. cbn [Z.ltb Z.compare] in Hm. apply ok_inj in Hm. subst d1. split; [reflexivity|].
  split; [exact (proj1 H)|]. split; [|exact R]. unfold s7_ctl, s7_c4, s7_c1. destruct (Z.ltb_spec 0 n); cbn; [|replace n with 0%Z in * by lia]; congruence.
Qed.

(** *** Lines *)
Lemma set_wait_same : forall x : dv, set_wait (wait x) x = x.
Proof. intros x; destruct x; reflexivity. Qed.
Lemma s7_hear_notice : forall P L (x : dv) d r, s7_on d s7_c0 r x -> prefixb (bs "+CIPRXGET: 1,0") L = true -> s7_hear P L x = on_data true x.
Proof.
  intros P L x d r H HL. on_inv H. unfold s7_hear. rewrite HL, Cr, Cw. cbn [s7_wait_after]. rewrite <- Cw, set_wait_same. reflexivity.
Qed.
Lemma s7_hear_count : forall P L (x : dv) d r v, s7_on d (s7_c2 0) r x -> prefixb (bs "+CIPRXGET: 4,0,") L = true -> number P (skipn 15 L) = v -> modest v ->
  s7_on d (s7_c3 v) r (s7_hear P L x).
Proof.
  intros P L x d r v H HL Hv Hm. on_inv H. unfold s7_hear. rewrite HL, Hv, (modest_i32 v Hm), Cr, Cw.
  pose proof HL as HL'. apply prefixb_spec in HL' as [t ->]. cbn [s7_wait_after]. change (prefixb (bs "OK") _) with false. change (prefixb (bs "+CIPRXGET: 1,0") _) with false. cbn [negb].
  split; [exact K|]. split; [|exact R]. unfold s7_ctl, s7_c3. cbn [sst rst wait toReceive toRead fl set_rst set_toReceive set_wait]. rewrite Cn. rewrite u64_small by (unfold modest in Hm; lia). rewrite Z.add_0_l. congruence.
Qed.
Lemma s7_hear_ok3 : forall P L (x : dv) d r v, s7_on d (s7_c3 v) r x -> prefixb (bs "OK") L = true -> s7_on d (s7_c4 v) r (s7_hear P L x).
Proof.
  intros P L x d r v H HL. on_inv H. unfold s7_hear. rewrite Cr, Cw. cbn [s7_wait_after]. rewrite HL.
  pose proof HL as HL'. apply prefixb_spec in HL' as [t ->]. change (prefixb (bs "+CIPRXGET: 1,0") _) with false. cbn iota.
  split; [exact K|]. split; [|exact R]. unfold s7_ctl, s7_c4. cbn [sst rst wait toReceive toRead fl set_wait]. congruence.
Qed.
Lemma s7_hear_header : forall P L (x : dv) d r n m, s7_on d (s7_c5 n) r x -> prefixb (bs "+CIPRXGET: 2,0,") L = true -> number P (skipn 15 L) = m -> modest n -> (0 <= m <= n)%Z ->
  s7_on d (s7_c6 (n - m) m) r (s7_hear P L x).
Proof.
  intros P L x d r n m H HL Hv Hn Hm. on_inv H. unfold s7_hear. unfold modest in Hn. rewrite HL, Hv, (modest_i32 m) by (unfold modest; lia). rewrite Cr, Cw. cbn [s7_wait_after].
  pose proof HL as HL'. apply prefixb_spec in HL' as [t ->]. change (prefixb (bs "+CIPRXGET: 1,0") _) with false. cbn iota.
  split; [|split; [|exact R]].
  - destruct K as (G & F & I & E). unfold s7_kept. splits; try assumption.
  - unfold s7_ctl, s7_c6. cbn [sst rst wait toReceive toRead fl set_sst set_rst set_toReceive set_toRead set_wait on_line fLine]. rewrite Cn, Cm. rewrite !u64_small by lia. rewrite Z.add_0_l. reflexivity.
Qed.
Lemma s7_hear_ok7 : forall P L (x : dv) d r n, s7_on d (s7_c7 n) r x -> prefixb (bs "OK") L = true -> s7_on d (s7_c8 n) r (s7_hear P L x).
Proof.
  intros P L x d r n H HL. on_inv H. unfold s7_hear. rewrite Cr, Cw. cbn [s7_wait_after]. rewrite HL.
  pose proof HL as HL'. apply prefixb_spec in HL' as [t ->]. change (prefixb (bs "+CIPRXGET: 1,0") _) with false. cbn iota.
  split; [exact K|]. split; [|exact R]. unfold s7_ctl, s7_c8. cbn [sst rst wait toReceive toRead fl set_wait]. congruence.
Qed.
Lemma s7_plain : forall w L, In w ["OK"; "+CIPRXGET: 1,0"; "+CIPRXGET: 4,0,"; "+CIPRXGET: 2,0,"]%string -> prefixb (bs w) L = true ->
  prefixb (bs "ERROR") L = false /\ prefixb (bs "+IPCLOSE: 0,") L = false.
Proof. intros w L Hin H. apply prefixb_spec in H as [t ->]. cbn [In] in Hin. repeat destruct Hin as [<-|Hin]; try (split; reflexivity). contradiction. Qed.

(** *** Dialogues *)
Definition s7_at (d : dv) c r (x : dv) : Prop := s7_on d c r x /\ rxsz (io x) = rxsz (io d).
Lemma s7_step_rxsz : forall P (d : dv) e d', s7_step P d e d' -> rxsz (io d') = rxsz (io d).
Proof.
  intros P d e d' (_ & _ & _ & _ & _ & Hst & _). exact (wire_rxsz _ _ _ Hst).
Qed.
Lemma s7_look_all : forall P d c r (x : dv) e x', s7_step P x e x' -> looks (e_op e) = true -> s7_at d c r x -> s7_at d c r x' /\ put (e_ev e) = [] /\ payload e = [].
Proof.
  intros P d c r x e x' Hs Hl [H1 H2]. destruct (s7_look P x e x' Hs Hl) as [E1 E2]. pose proof (s7_step_rxsz _ _ _ _ Hs) as E3. split; [|split; [exact E2|]].
  - split; [rewrite E1; exact H1|congruence].
  - destruct Hs as (_ & _ & _ & _ & _ & _ & _ & _ & z & Hc & _). unfold callrel in Hc. unfold payload. destruct (e_op e); try discriminate Hl; destruct Hc as [-> _]; reflexivity.
Qed.

(** Runs that do nothing. *)
Definition s7_stable P N d c r : Prop := forall q x e x', s7_step P x e x' -> roomy N x e -> aside s7_hum q e -> s7_at d c r x ->
  s7_at d c r x' /\ put (e_ev e) = [] /\ payload e = [].
Lemma s7_stable_pending : forall P N d s rp w n m ln r, rp = R7Ok \/ rp = R7Ciprxget4 \/ rp = R7Ciprxget2 -> s7_rank S7Connected <= s7_rank s ->
  w = None \/ w = Some (bs "OK") -> w <> None \/ rp <> R7Ok -> s7_stable P N d (s, rp, w, n, m, ln) r.
Proof.
  intros P N d s rp w n m ln r Hrp Hk Hw Hp q x e x' Hs Hr Ha [H Hz]. on_inv H. pose proof K as (G & F & _ & _). injection F as F1 F2 F3.
  assert (Hf : s7_fetches x) by (split; [rewrite Cr; exact Hrp|rewrite Cs; exact Hk]).
  destruct (s7_turns_aside P N x e x' q Hs Hr Ha G F2 Hf ltac:(rewrite Cw; exact Hw)) as (y & d1 & A1 & A2 & A3 & A4 & A5 & A6 & A7).
  pose proof (s7_on_shell _ _ _ _ _ H A1) as H1. destruct (s7_still e y d1 A2 A5) as (-> & P1 & P2); [|exact A7|].
  { on_inv H1. unfold s7_pending. rewrite Cw0, Cr0. exact Hp. }
  split; [|split; assumption]. split; [rewrite A6; exact H1|]. rewrite (s7_step_rxsz _ _ _ _ Hs). exact Hz.
Qed.
Lemma s7_stable_connected : forall P N d r, 20 <= N -> avail (wbuf d) = 0 -> s7_stable P N d s7_c0 r.
Proof.
  intros P N d r HN Hv q x e x' Hs Hr Ha [H Hz]. on_inv H. pose proof K as (G & F & _ & _). injection F as F1 F2 F3.
  assert (Hf : s7_fetches x) by (split; [rewrite Cr; tauto|rewrite Cs; cbn; lia]).
  destruct (s7_turns_aside P N x e x' q Hs Hr Ha G F2 Hf ltac:(rewrite Cw; tauto)) as (y & d1 & A1 & A2 & A3 & A4 & A5 & A6 & A7).
  pose proof (s7_on_shell _ _ _ _ _ H A1) as H1. on_inv H1.
  destruct (s7_free N e y d1 A2 A5 Cw0 Cr0 (proj1 K0) A3 HN A7) as (z & Q & B1 & B2 & B3 & B4 & B5).
  destruct (s7_connected_idle d r (set_io z y) d1 H1 Hv B3) as (E1 & E2).
  assert (Hn : put (e_ev e) = [] /\ payload e = []) by (apply B4; rewrite E1; apply ioeff_refl; apply B1).
  split; [|exact Hn]. split; [rewrite A6; exact E2|]. rewrite (s7_step_rxsz _ _ _ _ Hs). exact Hz.
Qed.
Lemma s7_upto : forall P N d0 c r p ps d tr d', dialogue (s7_step P) s7_hum N (p :: ps) d tr d' -> s7_at d0 c r d -> p = None \/ s7_stable P N d0 c r ->
  exists d1 e d2 tr2, sent tr = put (e_ev e) ++ sent tr2 /\ payloads tr = payload e ++ payloads tr2 /\ s7_at d0 c r d1 /\
    s7_step P d1 e d2 /\ roomy N d1 e /\ hears p e /\ dialogue (s7_step P) s7_hum N ps d2 tr2 d'.
Proof.
  intros P N d0 c r p ps d tr d' Hd Ha Hst.
  destruct (dialogue_till (s7_step P) s7_hum N p ps d tr d' (fun s t x => s = [] /\ t = [] /\ s7_at d0 c r x)) with (s := @nil ascii) (t := @nil ascii) as (tr1 & e & tr2 & d1 & d2 & E & (K1 & K2 & K3) & Hs & Hr & Hh & Hd2).
  - intros s t x e x' Hs Hl (-> & -> & H). destruct (s7_look_all P d0 c r x e x' Hs Hl H) as (B1 & B2 & B3). splits; auto.
  - intros q Hq s t x e x' Hs Hr Hi (-> & -> & H). destruct Hst as [Hst|Hst]; [congruence|]. destruct (Hst q x e x' Hs Hr Hi H) as (B1 & B2 & B3). rewrite B2, B3. splits; auto.
  - exact Hd.
  - splits; auto.
  - cbn [app] in K1, K2. exists d1, e, d2, tr2. splits; auto; rewrite E.
    + rewrite sent_app, K1. reflexivity.
    + rewrite payloads_app, K2. reflexivity.
Qed.

(** The notice starts a fetch. *)
Lemma s7_stage_notice : forall P N ps d0 r d tr d', dialogue (s7_step P) s7_hum N (reply (bs "+CIPRXGET: 1,0") :: ps) d tr d' -> s7_at d0 s7_c0 r d -> 20 <= N -> avail (wbuf d0) = 0 ->
  exists d2 tr2, sent tr = sent tr2 /\ payloads tr = payloads tr2 /\ s7_at d0 (s7_c1 0) r d2 /\ dialogue (s7_step P) s7_hum N ps d2 tr2 d'.
Proof.
  intros P N ps d0 r d tr d' Hd Ha HN Hv.
  destruct (s7_upto P N d0 _ r _ _ d tr d' Hd Ha (or_intror (s7_stable_connected P N d0 r HN Hv))) as (x & e & d2 & tr2 & E1 & E2 & [H Hz] & Hs & Hr & Hh & Hd2).
  on_inv H. pose proof K as (G & F & _ & _). injection F as F1 F2 F3. assert (Hf : s7_fetches x) by (split; [rewrite Cr; tauto|rewrite Cs; cbn; lia]).
  destruct (s7_turns P N x e d2 _ Hs Hr Hh G F2 Hf) as (o & y & d1 & A0 & A1 & A2 & _ & _ & _ & A3 & A4 & A5 & A6 & A7).
  { intros q L Eq HL. unfold reply in Eq. apply some_eq in Eq. subst q. exact (s7_plain "+CIPRXGET: 1,0" L ltac:(cbn; tauto) HL). }
  destruct o as [L|]; [|destruct A0]. cbn [heard_as reply heard] in *. pose proof (s7_on_shell _ _ _ _ _ H A1) as H1. rewrite (s7_hear_notice P L y d0 r H1 A0) in *. on_inv H1.
  destruct (s7_free N e (on_data true y) d1 A2 A5 Cw0 Cr0 (proj1 K0) A3 HN A7) as (z & Q & B1 & B2 & B3 & B4 & B5).
  destruct (s7_connected_data d0 r (set_io z y) d1 H1 Hv B3) as (I1 & I2).
  assert (Hn : put (e_ev e) = [] /\ payload e = []) by (apply B4; rewrite I1; apply ioeff_refl; apply B1). destruct Hn as [N1 N2].
  exists d2, tr2. rewrite E1, E2, N1, N2. splits; auto. split; [rewrite A6; exact I2|]. rewrite (s7_step_rxsz _ _ _ _ Hs). exact Hz.
Qed.

(** How many bytes the modem has. *)
Lemma s7_stage_count : forall P N ps d0 r d tr d', dialogue (s7_step P) s7_hum N (None :: ps) d tr d' -> s7_at d0 (s7_c1 0) r d -> 20 <= N ->
  exists d2 tr2, sent tr = s7_get4 ++ [CR; LF] ++ sent tr2 /\ payloads tr = payloads tr2 /\ s7_at d0 (s7_c2 0) r d2 /\ dialogue (s7_step P) s7_hum N ps d2 tr2 d'.
Proof.
  intros P N ps d0 r d tr d' Hd Ha HN.
  destruct (s7_upto P N d0 _ r _ _ d tr d' Hd Ha (or_introl eq_refl)) as (x & e & d2 & tr2 & E1 & E2 & [H Hz] & Hs & Hr & Hh & Hd2).
  on_inv H. pose proof K as (G & F & _ & _). injection F as F1 F2 F3. assert (Hf : s7_fetches x) by (split; [rewrite Cr; tauto|rewrite Cs; cbn; lia]).
  destruct (s7_turns P N x e d2 _ Hs Hr Hh G F2 Hf ltac:(discriminate)) as (o & y & d1 & A0 & A1 & A2 & _ & _ & _ & A3 & A4 & A5 & A6 & A7).
  destruct o as [L|]; [destruct A0|]. cbn [heard] in *. pose proof (s7_on_shell _ _ _ _ _ H A1) as H1. on_inv H1.
  destruct (s7_free N e y d1 A2 A5 Cw0 Cr0 (proj1 K0) A3 HN A7) as (z & Q & B1 & B2 & B3 & B4 & B5).
  pose proof (s7_asks_count d0 0 r (set_io z y) B1 H1) as T. rewrite B3 in T. cbn [wp] in T. destruct T as ((q & I1 & _ & I2) & T2).
  destruct (B4 _ _ I1) as [N1 N2]. rewrite I2 in N1 by (cbn; cbn [io set_io] in B2; lia).
  exists d2, tr2. rewrite E1, E2, N1, N2, <- app_assoc. splits; auto. split; [rewrite A6; exact T2|]. rewrite (s7_step_rxsz _ _ _ _ Hs). exact Hz.
Qed.
Lemma s7_stage_counted : forall P N ps d0 r v d tr d', dialogue (s7_step P) s7_hum N (counted P (bs "+CIPRXGET: 4,0,") v :: ps) d tr d' -> s7_at d0 (s7_c2 0) r d -> modest v ->
  exists d2 tr2, sent tr = sent tr2 /\ payloads tr = payloads tr2 /\ s7_at d0 (s7_c3 v) r d2 /\ dialogue (s7_step P) s7_hum N ps d2 tr2 d'.
Proof.
  intros P N ps d0 r v d tr d' Hd Ha Hv.
  assert (Hst : s7_stable P N d0 (s7_c2 0) r) by (apply s7_stable_pending; [tauto|cbn; lia|tauto|left; discriminate]).
  destruct (s7_upto P N d0 _ r _ _ d tr d' Hd Ha (or_intror Hst)) as (x & e & d2 & tr2 & E1 & E2 & [H Hz] & Hs & Hr & Hh & Hd2).
  on_inv H. pose proof K as (G & F & _ & _). injection F as F1 F2 F3. assert (Hf : s7_fetches x) by (split; [rewrite Cr; tauto|rewrite Cs; cbn; lia]).
  destruct (s7_turns P N x e d2 _ Hs Hr Hh G F2 Hf) as (o & y & d1 & A0 & A1 & A2 & _ & _ & _ & A3 & A4 & A5 & A6 & A7).
  { intros q L Eq HL. unfold counted in Eq. apply some_eq in Eq. subst q. exact (s7_plain "+CIPRXGET: 4,0," L ltac:(cbn; tauto) (proj1 HL)). }
  destruct o as [L|]; [|destruct A0]. cbn [heard_as counted heard] in *. pose proof (s7_on_shell _ _ _ _ _ H A1) as H1.
  pose proof (s7_hear_count P L y d0 r v H1 (proj1 A0) (proj2 A0) Hv) as H2. on_inv H2.
  destruct (s7_still e _ d1 A2 A5) as (-> & N1 & N2); [left; rewrite Cw0; discriminate|exact A7|].
  exists d2, tr2. rewrite E1, E2, N1, N2. splits; auto. split; [rewrite A6; exact H2|]. rewrite (s7_step_rxsz _ _ _ _ Hs). exact Hz.
Qed.

(** Asking for the data: not yet, or for [k] bytes. *)
Definition s7_asking (d : dv) (n : Z) (r : ring ascii) (s : bytes) (x : dv) : Prop :=
  (s = [] /\ s7_at d (s7_c4 n) r x) \/
  (s7_at d (s7_c5 n) r x /\ exists a, a <= rxsz (io d) /\ s = s7_get2 (s7_wants d n a r) ++ [CR; LF]).
Lemma s7_machine_asks : forall P N d0 n r (x : dv) e d1 d2 z xx, s7_step P xx e d2 -> rxsz (io xx) = rxsz (io d0) -> d2 = set_io (io d2) d1 -> s7_inv (set_io z x) -> s7_on d0 (s7_c4 n) r x -> rxsz z = rxsz (io d0) -> txav z + N <= txsz z -> 40 <= N ->
  s7_machine (set_io z x) = Ok d1 -> s7_put_says e (set_io z x) d1 -> (0 <= n)%Z ->
  payload e = [] /\ ((n = 0%Z /\ put (e_ev e) = [] /\ s7_at d0 s7_c0 r d2) \/
    ((0 < n)%Z /\ s7_asking d0 n r (put (e_ev e)) d2 /\ (sched z = [] -> rxav z + 8 < rxsz (io d0) -> 0 < ring_space r -> s7_at d0 (s7_c5 n) r d2))).
Proof.
  intros P N d0 n r x e d1 d2 z xx Hs Hzz A6 B1 H1 Hz Ht HN B3 B4 Hn.
  pose proof (s7_asks_data d0 n r (set_io z x) B1 H1 Hz) as T. rewrite B3 in T. cbn [wp io set_io] in T.
  assert (Hx : rxsz (io d2) = rxsz (io d0)) by (rewrite (s7_step_rxsz _ _ _ _ Hs); exact Hzz).
  destruct T as [(T1 & T2 & T3)|[(T1 & T2 & T3 & T4)|(T1 & T2 & a & T3 & (q & I1 & _ & I2) & T5)]].
  - destruct (B4 [] []) as [N1 N2]; [rewrite T2; apply ioeff_refl; apply B1|]. split; [exact N2|]. left. splits; auto. split; [rewrite A6; exact T3|exact Hx].
  - destruct (B4 _ _ T2) as [N1 N2]. split; [exact N2|]. right. split; [exact T1|]. split; [left; split; [exact N1|split; [rewrite A6; exact T3|exact Hx]]|].
    intros Hsc Hrx Hsp. destruct (T4 Hsc); lia.
  - destruct (B4 _ _ I1) as [N1 N2]. split; [exact N2|]. right. split; [exact T1|].
    assert (Hat : s7_at d0 (s7_c5 n) r d2) by (split; [rewrite A6; exact T2|exact Hx]). split; [|intros; exact Hat].
    right. split; [exact Hat|]. exists a. split; [exact T3|]. rewrite N1. apply I2.
    pose proof (proj2 (dec_digits (s7_wants d0 n a r))).
    unfold s7_get2. rewrite !app_length. cbn [length bs list_ascii_of_string]. lia.
Qed.

Lemma s7_stage_ok : forall P N ps d0 r v d tr d', dialogue (s7_step P) s7_hum N (reply (bs "OK") :: ps) d tr d' -> s7_at d0 (s7_c3 v) r d -> (0 <= v)%Z -> 40 <= N ->
  exists d2 tr2 s, sent tr = s ++ sent tr2 /\ payloads tr = payloads tr2 /\ dialogue (s7_step P) s7_hum N ps d2 tr2 d' /\
    ((v = 0%Z /\ s = [] /\ s7_at d0 s7_c0 r d2) \/ ((0 < v)%Z /\ s7_asking d0 v r s d2)).
Proof.
  intros P N ps d0 r v d tr d' Hd Ha Hv HN.
  assert (Hst : s7_stable P N d0 (s7_c3 v) r) by (apply s7_stable_pending; [tauto|cbn; lia|tauto|left; discriminate]).
  destruct (s7_upto P N d0 _ r _ _ d tr d' Hd Ha (or_intror Hst)) as (x & e & d2 & tr2 & E1 & E2 & [H Hz] & Hs & Hr & Hh & Hd2).
  on_inv H. pose proof K as (G & F & _ & _). injection F as F1 F2 F3. assert (Hf : s7_fetches x) by (split; [rewrite Cr; tauto|rewrite Cs; cbn; lia]).
  destruct (s7_turns P N x e d2 _ Hs Hr Hh G F2 Hf) as (o & y & d1 & A0 & A1 & A2 & _ & _ & _ & A3 & A4 & A5 & A6 & A7).
  { intros q L Eq HL. unfold reply in Eq. apply some_eq in Eq. subst q. exact (s7_plain "OK" L ltac:(cbn; tauto) HL). }
  destruct o as [L|]; [|destruct A0]. cbn [heard_as reply heard] in *. pose proof (s7_on_shell _ _ _ _ _ H A1) as H1.
  pose proof (s7_hear_ok3 P L y d0 r v H1 A0) as H2. on_inv H2.
  assert (Hio : io (s7_hear P L y) = io y) by (unfold s7_hear; repeat match goal with |- context [match ?c with _ => _ end] => destruct c end; reflexivity).
  destruct (s7_free N e _ d1 A2 A5 Cw0 Cr0 (proj1 K0) ltac:(rewrite Hio; exact A3) ltac:(lia) A7) as (z & Q & B1 & B2 & B3 & B4 & B5).
  pose proof (ioeff_rxsz _ _ _ _ (quiet_ioeff _ _ Q)) as Q1. rewrite Hio, A4, Hz in Q1.
  destruct (s7_machine_asks P N d0 v r (s7_hear P L y) e d1 d2 z x Hs Hz A6 B1 H2 Q1 B2 HN B3 B4 Hv) as (N2 & [(V0 & N1 & N3)|(V0 & N3 & _)]).
  - exists d2, tr2, []. rewrite E1, E2, N1, N2. splits; auto.
  - exists d2, tr2, (put (e_ev e)). rewrite E1, E2, N2. splits; auto.
Qed.

(** A run() without interrupts asks, if it has not been done. *)
Lemma s7_ask_now : forall P N d0 n r s x e x', s7_asking d0 n r s x -> (0 < n)%Z -> s7_step P x e x' -> roomy N x e -> hears None e -> e_sch e = [] -> 40 <= N -> 8 < rxsz (io d0) -> 0 < ring_space r ->
  payload e = [] /\ s7_at d0 (s7_c5 n) r x' /\ exists a, a <= rxsz (io d0) /\ s ++ put (e_ev e) = s7_get2 (s7_wants d0 n a r) ++ [CR; LF].
Proof.
  intros P N d0 n r s x e x' [[-> [H Hz]]|[Hat (a & Ha & ->)]] Hn Hs Hr Hh He HN Hrx Hsp.
  - on_inv H. pose proof K as (G & F & _ & _). injection F as F1 F2 F3. assert (Hf : s7_fetches x) by (split; [rewrite Cr; tauto|rewrite Cs; cbn; lia]).
    destruct (s7_turns P N x e x' _ Hs Hr Hh G F2 Hf ltac:(discriminate)) as (o & y & d1 & A0 & A1 & A2 & _ & A8 & A9 & A3 & A4 & A5 & A6 & A7).
    destruct o as [L|]; [destruct A0|]. cbn [heard] in *. pose proof (s7_on_shell _ _ _ _ _ H A1) as H1. on_inv H1. specialize (A8 eq_refl Cl). specialize (A9 eq_refl He).
    destruct (s7_free N e y d1 A2 A5 Cw0 Cr0 (proj1 K0) A3 ltac:(lia) A7) as (z & Q & B1 & B2 & B3 & B4 & B5).
    pose proof (ioeff_rxsz _ _ _ _ (quiet_ioeff _ _ Q)) as Q1. rewrite A4, Hz in Q1.
    pose proof (B5 A9) as Hzz. subst z.
    destruct (s7_machine_asks P N d0 n r y e d1 x' (io y) x Hs Hz A6 B1 H1 Q1 B2 HN B3 B4 ltac:(lia)) as (N2 & [(V0 & N1 & N3)|(V0 & N3 & N4)]); [lia|].
    specialize (N4 A9 ltac:(lia) Hsp). split; [exact N2|]. split; [exact N4|]. cbn [app].
    destruct N3 as [[_ N3]|[_ N3]]; [|exact N3]. destruct N3 as [N3 _]. on_inv N3. destruct N4 as [N4 _]. on_inv N4. congruence.
  - assert (Hst : s7_stable P N d0 (s7_c5 n) r) by (apply s7_stable_pending; [tauto|cbn; lia|tauto|right; discriminate]).
    destruct (Hst (fun _ => False) x e x' Hs Hr (or_introl Hh) Hat) as (B1 & B2 & B3). split; [exact B3|]. split; [exact B1|]. exists a. rewrite B2, app_nil_r. split; [exact Ha|reflexivity].
Qed.

(** The data comes. *)
Definition s7_taking (d : dv) (n m : Z) (r : ring ascii) (s t : bytes) (x : dv) : Prop :=
  s = [] /\ ((t = [] /\ s7_at d (s7_c6 n m) r x) \/
    (exists r', Z.of_nat (length t) = m /\ ring_ok r' /\ contents r' = contents r ++ t /\ rsize r' = rsize r /\ s7_at d (s7_c7 n) r' x)).
Lemma s7_machine_takes : forall P d0 n m r (x : dv) e d1 d2 z xx, s7_step P xx e d2 -> rxsz (io xx) = rxsz (io d0) -> d2 = set_io (io d2) d1 -> s7_inv (set_io z x) -> s7_on d0 (s7_c6 n m) r x ->
  (0 < m)%Z -> ring_ok r -> (Z.of_nat (avail r) + m <= Z.of_nat (rsize r))%Z -> s7_machine (set_io z x) = Ok d1 -> s7_put_says e (set_io z x) d1 ->
  s7_taking d0 n m r (put (e_ev e)) (payload e) d2.
Proof.
  intros P d0 n m r x e d1 d2 z xx Hs Hzz A6 B1 H1 Hm Hok Hfit B3 B4.
  pose proof (s7_takes d0 n m r (set_io z x) B1 H1 Hm Hok Hfit) as T. rewrite B3 in T. cbn [wp io set_io] in T.
  assert (Hx : rxsz (io d2) = rxsz (io d0)) by (rewrite (s7_step_rxsz _ _ _ _ Hs); exact Hzz).
  destruct T as [(T1 & T2)|(tk & r' & T1 & T2 & T3 & T4 & T5 & T6)]; destruct (B4 _ _ T1) as [-> ->]; (split; [reflexivity|]).
  - left. split; [reflexivity|]. split; [rewrite A6; exact T2|exact Hx].
  - right. exists r'. splits; auto. split; [rewrite A6; exact T6|exact Hx].
Qed.
Lemma s7_stage_data : forall P N ps d0 r n m d tr d', dialogue (s7_step P) s7_hum N (counted P (bs "+CIPRXGET: 2,0,") m :: reply (bs "OK") :: ps) d tr d' -> s7_at d0 (s7_c5 n) r d -> modest n ->
  (0 < m <= n)%Z -> ring_ok r -> (Z.of_nat (avail r) + m <= Z.of_nat (rsize r))%Z -> 40 <= N ->
  exists d2 tr2 tk r', sent tr = sent tr2 /\ payloads tr = tk ++ payloads tr2 /\ dialogue (s7_step P) s7_hum N ps d2 tr2 d' /\
    Z.of_nat (length tk) = m /\ ring_ok r' /\ contents r' = contents r ++ tk /\ rsize r' = rsize r /\ s7_at d0 (if (0 <? n - m)%Z then s7_c4 (n - m) else s7_c1 0) r' d2.
Proof.
  intros P N ps d0 r n m d tr d' Hd Ha Hn Hm Hok Hfit HN.
  assert (Hst : s7_stable P N d0 (s7_c5 n) r) by (apply s7_stable_pending; [tauto|cbn; lia|tauto|right; discriminate]).
  destruct (s7_upto P N d0 _ r _ _ d tr d' Hd Ha (or_intror Hst)) as (x & e & d2 & tr2 & E1 & E2 & [H Hz] & Hs & Hr & Hh & Hd2).
  assert (HT : s7_taking d0 (n - m) m r (put (e_ev e)) (payload e) d2).
  { on_inv H. pose proof K as (G & F & _ & _). injection F as F1 F2 F3. assert (Hf : s7_fetches x) by (split; [rewrite Cr; tauto|rewrite Cs; cbn; lia]).
    destruct (s7_turns P N x e d2 _ Hs Hr Hh G F2 Hf) as (o & y & d1 & A0 & A1 & A2 & _ & _ & _ & A3 & A4 & A5 & A6 & A7).
    { intros q L Eq HL. unfold counted in Eq. apply some_eq in Eq. subst q. exact (s7_plain "+CIPRXGET: 2,0," L ltac:(cbn; tauto) (proj1 HL)). }
    destruct o as [L|]; [|destruct A0]. cbn [heard_as counted heard] in *. pose proof (s7_on_shell _ _ _ _ _ H A1) as H1.
    pose proof (s7_hear_header P L y d0 r n m H1 (proj1 A0) (proj2 A0) Hn ltac:(lia)) as H2. on_inv H2.
    assert (Hio : io (s7_hear P L y) = io y) by (unfold s7_hear; repeat match goal with |- context [match ?c with _ => _ end] => destruct c end; reflexivity).
    destruct (s7_free N e _ d1 A2 A5 Cw0 Cr0 (proj1 K0) ltac:(rewrite Hio; exact A3) ltac:(lia) A7) as (z & Q & B1 & B2 & B3 & B4 & B5).
    exact (s7_machine_takes P d0 (n - m) m r _ e d1 d2 z x Hs Hz A6 B1 H2 ltac:(lia) Hok Hfit B3 B4). }
  clear Hs Hr Hh H Hz.
  destruct (dialogue_till (s7_step P) s7_hum N (reply (bs "OK")) ps d2 tr2 d' (s7_taking d0 (n - m) m r)) with (s := put (e_ev e)) (t := payload e) as (tr3 & e3 & tr4 & x3 & d4 & E & K & Hs & Hr & Hh & Hd4).
  - intros s t x0 e0 x' Hs Hl (-> & [[-> K]|(r' & K1 & K2 & K3 & K4 & K5)]).
    + destruct (s7_look_all P d0 _ r x0 e0 x' Hs Hl K) as (B1 & B2 & B3). split; [|auto]. split; [reflexivity|]. left. auto.
    + destruct (s7_look_all P d0 _ r' x0 e0 x' Hs Hl K5) as (B1 & B2 & B3). split; [|auto]. split; [reflexivity|]. right. exists r'. splits; auto.
  - intros q Hq s t x0 e0 x' Hs Hr Hi (-> & [[-> [H Hz]]|(r' & K1 & K2 & K3 & K4 & K5)]).
    + cbn [app]. on_inv H. pose proof K as (G & F & _ & _). injection F as F1 F2 F3. assert (Hf : s7_fetches x0) by (split; [rewrite Cr; tauto|rewrite Cs; cbn; lia]).
      destruct (s7_turns_aside P N x0 e0 x' q Hs Hr Hi G F2 Hf ltac:(rewrite Cw; tauto)) as (y & d1 & A1 & A2 & A3 & A4 & A5 & A6 & A7).
      pose proof (s7_on_shell _ _ _ _ _ H A1) as H1. on_inv H1.
      destruct (s7_free N e0 y d1 A2 A5 Cw0 Cr0 (proj1 K0) A3 ltac:(lia) A7) as (z & Q & B1 & B2 & B3 & B4 & B5).
      exact (s7_machine_takes P d0 (n - m) m r _ e0 d1 x' z x0 Hs Hz A6 B1 H1 ltac:(lia) Hok Hfit B3 B4).
    + assert (Hst7 : s7_stable P N d0 (s7_c7 (n - m)) r') by (apply s7_stable_pending; [tauto|cbn; lia|tauto|left; discriminate]).
      destruct (Hst7 q x0 e0 x' Hs Hr Hi K5) as (B1 & B2 & B3). rewrite B2, B3, !app_nil_r. split; [reflexivity|]. right. exists r'. splits; auto.
  - exact Hd2.
  - exact HT.
  - destruct K as (Ks & [[Kt [H Hz]]|(r' & K1 & K2 & K3 & K4 & [H Hz])]).
    + exfalso. on_inv H. pose proof K as (G & F & _ & _). injection F as F1 F2 F3. assert (Hf : s7_fetches x3) by (split; [rewrite Cr; tauto|rewrite Cs; cbn; lia]).
      destruct (s7_turns P N x3 e3 d4 _ Hs Hr Hh G F2 Hf) as (o & y & d1 & A0 & A1 & A2 & A8 & _).
      { intros q L Eq HL. unfold reply in Eq. apply some_eq in Eq. subst q. exact (s7_plain "OK" L ltac:(cbn; tauto) HL). }
      destruct o as [L|]; [|destruct A0]. specialize (A8 ltac:(discriminate)). congruence.
    + on_inv H. pose proof K as (G & F & _ & _). injection F as F1 F2 F3. assert (Hf : s7_fetches x3) by (split; [rewrite Cr; tauto|rewrite Cs; cbn; lia]).
      destruct (s7_turns P N x3 e3 d4 _ Hs Hr Hh G F2 Hf) as (o & y & d1 & A0 & A1 & A2 & _ & _ & _ & A3 & A4 & A5 & A6 & A7).
      { intros q L Eq HL. unfold reply in Eq. apply some_eq in Eq. subst q. exact (s7_plain "OK" L ltac:(cbn; tauto) HL). }
      destruct o as [L|]; [|destruct A0]. cbn [heard_as reply heard] in *. pose proof (s7_on_shell _ _ _ _ _ H A1) as H1.
      pose proof (s7_hear_ok7 P L y d0 r' (n - m) H1 A0) as H2. on_inv H2.
      assert (Hio : io (s7_hear P L y) = io y) by (unfold s7_hear; repeat match goal with |- context [match ?c with _ => _ end] => destruct c end; reflexivity).
      destruct (s7_free N e3 _ d1 A2 A5 Cw0 Cr0 (proj1 K0) ltac:(rewrite Hio; exact A3) ltac:(lia) A7) as (z & Q & B1 & B2 & B3 & B4 & B5).
      destruct (s7_goes_on d0 (n - m) r' (set_io z (s7_hear P L y)) d1 H2 ltac:(lia) B3) as (I1 & I2).
      destruct (B4 [] []) as [N1 N2]; [rewrite I1; apply ioeff_refl; apply B1|].
      exists d4, tr4, (payload e ++ payloads tr3), r'. splits; auto.
      * rewrite E1, E, sent_app, sent_cons, N1, !app_assoc, Ks. reflexivity.
      * rewrite E2, E, payloads_app, payloads_cons, N2. cbn [app]. rewrite app_assoc. reflexivity.
      * split; [rewrite A6; exact I2|]. rewrite (s7_step_rxsz _ _ _ _ Hs). exact Hz.
Qed.

Lemma s7_rest_at : forall P N d0 c r d tr d', dialogue (s7_step P) s7_hum N [] d tr d' -> s7_at d0 c r d -> sent tr = [] /\ payloads tr = [] /\ s7_at d0 c r d'.
Proof. intros P N d0 c r d tr d' Hd Ha. refine (dialogue_rest _ _ N d tr d' (s7_at d0 c r) _ Hd Ha). intros x e x'. apply s7_look_all. Qed.

Definition s7_header (P : plat) (m : Z) := counted P (bs "+CIPRXGET: 2,0,") m.
Lemma s7_chunks : forall P N d0 ms d tr d', chunks (s7_step P) s7_hum N (s7_header P) d ms tr d' -> forall n r s, s7_asking d0 n r s d -> modest n -> (0 < n)%Z -> Forall (fun m => (0 < m)%Z) ms -> fold_right Z.add 0%Z ms = n ->
  ring_ok r -> (Z.of_nat (avail r) + n <= Z.of_nat (rsize r))%Z -> 8 < rxsz (io d0) -> 40 <= N ->
  exists ks r', s ++ sent tr = commands (map s7_get2 ks) /\ length ks = length ms /\ Forall (fun k => (k <= n)%Z /\ (k <= maxrx (ext d0))%Z) ks /\
    contents r' = contents r ++ payloads tr /\ Z.of_nat (length (payloads tr)) = n /\ ring_ok r' /\ rsize r' = rsize r /\ s7_at d0 (s7_c1 0) r' d'.
Proof.
  intros P N d0 ms d tr d' Hc. induction Hc as [d|d e d1 m ms tr d2 tr2 d' Hs Hr Hh He Hd Hc IH]; intros n r s Ha Hn Hp Hms Hsum Hok Hfit Hrx HN; [cbn in Hsum; lia|].
  apply Forall_cons_iff in Hms as [Hm Hms]. cbn [fold_right] in Hsum.
  assert (Hrest : (0 <= fold_right Z.add 0 ms)%Z) by (clear -Hms; induction Hms; cbn [fold_right]; lia).
  destruct (s7_ask_now P N d0 n r s d e d1 Ha Hp Hs Hr Hh He HN Hrx ltac:(unfold ring_space; lia)) as (Pe & Hat & a & Hla & Hask).
  destruct (s7_stage_data P N [] d0 r n m d1 tr d2 Hd Hat Hn ltac:(lia) Hok ltac:(lia) HN) as (x2 & tr3 & tk & r' & S1 & S2 & S3 & S4 & S5 & S6 & S7 & S8).
  destruct (s7_rest_at P N d0 _ r' x2 tr3 d2 S3 S8) as (S9 & S10 & S11). rewrite S9 in S1. rewrite S10, app_nil_r in S2.
  assert (Hk : forall a, (s7_wants d0 n a r <= n)%Z /\ (s7_wants d0 n a r <= maxrx (ext d0))%Z) by (intro; unfold s7_wants; lia).
  assert (Hav : avail r' = avail r + length tk).
  { rewrite <- (contents_length _ (proj1 S5)), <- (contents_length _ (proj1 Hok)), S6, app_length. reflexivity. }
  destruct (Z.ltb_spec 0 (n - m)) as [Hlt|Hge].
  - destruct (IH (n - m)%Z r' []) as (ks & r2 & K1 & K2 & K3 & K4 & K5 & K6 & K7 & K8); try assumption; try lia.
    + left. auto.
    + unfold modest in *. lia.
    + exists (s7_wants d0 n a r :: ks), r2. rewrite sent_cons, payloads_cons, sent_app, payloads_app, Pe, S1, S2. cbn [app map length]. rewrite app_assoc, Hask. cbn [app] in K1. rewrite K1. splits; auto.
      * apply Forall_cons; [apply Hk|]. eapply Forall_impl; [|exact K3]. cbv beta. intros; lia.
      * rewrite K4, S6, app_assoc. reflexivity.
      * rewrite app_length. lia.
      * congruence.
  - assert (ms = []) as -> by (destruct ms as [|m2 ms]; [reflexivity|]; apply Forall_cons_iff in Hms as [Hm2 Hms]; cbn [fold_right] in *; assert (0 <= fold_right Z.add 0 ms)%Z by (clear -Hms; induction Hms; cbn [fold_right]; lia); lia).
    destruct (chunks_nil _ _ _ _ _ _ _ Hc) as [-> ->]. exists [s7_wants d0 n a r], r'. cbn [fold_right] in *. rewrite sent_cons, payloads_cons, sent_app, payloads_app, Pe, S1, S2. cbn [app map length sent payloads concat]. rewrite !app_nil_r, Hask. splits; auto; try lia. unfold commands. cbn [map concat]. rewrite app_nil_r. reflexivity.
Qed.

(** The modem's side of a fetch of [n] bytes, before and after the data. *)
Definition s7_fetch_replies (P : plat) (n : Z) : list (option (bytes -> Prop)) :=
  [reply (bs "+CIPRXGET: 1,0"); None; counted P (bs "+CIPRXGET: 4,0,") n; reply (bs "OK")].
Definition s7_fetched_replies (P : plat) : list (option (bytes -> Prop)) :=
  [None; counted P (bs "+CIPRXGET: 4,0,") 0; reply (bs "OK")].

Lemma commands_cons : forall c l, commands (c :: l) = (c ++ [CR; LF]) ++ commands l.
Proof. reflexivity. Qed.
Lemma commands_app : forall a b, commands (a ++ b) = commands a ++ commands b.
Proof. intros. unfold commands. rewrite map_app, concat_app. reflexivity. Qed.

Theorem s7_fetches_all : forall P N n ms d tr1 d1 tr2 d2 tr3 d3, s7_on d s7_c0 (rbuf d) d -> avail (wbuf d) = 0 -> ring_ok (rbuf d) ->
  dialogue (s7_step P) s7_hum N (s7_fetch_replies P n) d tr1 d1 -> chunks (s7_step P) s7_hum N (s7_header P) d1 ms tr2 d2 -> dialogue (s7_step P) s7_hum N (s7_fetched_replies P) d2 tr3 d3 ->
  modest n -> Forall (fun m => (0 < m)%Z) ms -> fold_right Z.add 0%Z ms = n -> (0 < n)%Z -> (Z.of_nat (avail (rbuf d)) + n <= Z.of_nat (rsize (rbuf d)))%Z -> 8 < rxsz (io d) -> 40 <= N ->
  exists ks, sent (tr1 ++ tr2 ++ tr3) = commands (s7_get4 :: map s7_get2 ks ++ [s7_get4]) /\ length ks = length ms /\ Forall (fun k => (k <= n)%Z /\ (k <= maxrx (ext d))%Z) ks /\
    contents (rbuf d3) = contents (rbuf d) ++ payloads (tr1 ++ tr2 ++ tr3) /\ Z.of_nat (length (payloads (tr1 ++ tr2 ++ tr3))) = n /\
    ring_ok (rbuf d3) /\ rsize (rbuf d3) = rsize (rbuf d) /\ s7_on d s7_c0 (rbuf d3) d3.
Proof.
  intros P N n ms d tr1 d1 tr2 d2 tr3 d3 H0 Hv Hok Hd1 Hc Hd3 Hn Hms Hsum Hp Hfit Hrx HN.
  unfold s7_fetch_replies, s7_fetched_replies in *.
  destruct (s7_stage_notice P N _ d (rbuf d) d tr1 d1 Hd1 (conj H0 eq_refl) ltac:(lia) Hv) as (xa & ta & A1 & A2 & A3 & A4).
  destruct (s7_stage_count P N _ d (rbuf d) xa ta d1 A4 A3 ltac:(lia)) as (xb & tb & B1 & B2 & B3 & B4).
  destruct (s7_stage_counted P N _ d (rbuf d) n xb tb d1 B4 B3 Hn) as (xc & tc & C1 & C2 & C3 & C4).
  destruct (s7_stage_ok P N _ d (rbuf d) n xc tc d1 C4 C3 ltac:(lia) HN) as (xd & td & s & D1 & D2 & D3 & [(Z0 & _)|(_ & D4)]); [lia|].
  assert (D5 : sent td = [] /\ payloads td = [] /\ s7_asking d n (rbuf d) s d1).
  { destruct D4 as [[-> D4]|[D4 D5]].
    - destruct (s7_rest_at P N d _ _ xd td d1 D3 D4) as (R1 & R2 & R3). splits; auto. left. auto.
    - destruct (s7_rest_at P N d _ _ xd td d1 D3 D4) as (R1 & R2 & R3). splits; auto. right. auto. }
  destruct D5 as (D5 & D6 & D7).
  destruct (s7_chunks P N d ms d1 tr2 d2 Hc n (rbuf d) s D7 Hn Hp Hms Hsum Hok Hfit Hrx HN) as (ks & r' & K1 & K2 & K3 & K4 & K5 & K6 & K7 & K8).
  destruct (s7_stage_count P N _ d r' d2 tr3 d3 Hd3 K8 ltac:(lia)) as (xe & te & E1 & E2 & E3 & E4).
  destruct (s7_stage_counted P N _ d r' 0 xe te d3 E4 E3 ltac:(unfold modest; lia)) as (xf & tf & F1 & F2 & F3 & F4).
  destruct (s7_stage_ok P N _ d r' 0 xf tf d3 F4 F3 ltac:(lia) HN) as (xg & tg & s2 & G1 & G2 & G3 & [(_ & -> & G4)|(Z0 & _)]); [|lia].
  destruct (s7_rest_at P N d _ _ xg tg d3 G3 G4) as (G5 & G6 & [G7 G8]).
  assert (Er : rbuf d3 = r') by apply G7.
  assert (Ep : payloads (tr1 ++ tr2 ++ tr3) = payloads tr2).
  { rewrite !payloads_app, A2, B2, C2, D2, D6, E2, F2, G2, G6, app_nil_r. reflexivity. }
  exists ks. rewrite Er, Ep. splits; auto.
  rewrite !sent_app, A1, B1, C1, D1, D5, E1, F1, G1, G5, commands_cons, commands_app, <- K1. cbn [app]. unfold commands. cbn [map concat]. rewrite !app_nil_r, <- !app_assoc. reflexivity.
Qed.
