(** Fetching received data: dialogues in which also the waiting may send or receive. *)
From Coq Require Import String Ascii ZArith List Bool Arith Lia ZifyBool ZifyNat.
From Verif Require Import Base QueueSpec LineSpec SerialSpec Ring RingProofs LineRing LineRingProofs Serial SerialProofs
  SerStep TaskMacros CStr CStrProofs Dev DevProofs SimDev SimProofs SimParse Sym DrvStep DrvCommon DrvRun DrvHand.
Import ListNotations.
Local Open Scope nat_scope.
Ltac Zify.zify_post_hook ::= Z.div_mod_to_equations.

(** The payload bytes taken from the port. *)
Definition act_payload (a : act) : bytes := match a with aReceive tk => tk | _ => [] end.
Definition payload {XO} (e : @entry XO) : bytes := concat (map act_payload (e_acts e)).
Definition payloads {XO} (tr : list (@entry XO)) : bytes := concat (map payload tr).
Lemma payloads_app : forall XO (a b : list (@entry XO)), payloads (a ++ b) = payloads a ++ payloads b.
Proof. intros. unfold payloads. rewrite map_app, concat_app. reflexivity. Qed.
Lemma payloads_cons : forall XO (e : @entry XO) l, payloads (e :: l) = payload e ++ payloads l.
Proof. reflexivity. Qed.

(** A reply that begins with [w] and goes on with the number [v]. *)
Definition counted (P : plat) (w : bytes) (v : Z) : option (bytes -> Prop) :=
  Some (fun L => prefixb w L = true /\ number P (skipn (length w) L) = v).
(** A number as the modems send them. *)
Definition modest (v : Z) : Prop := (0 <= v < 2147483648)%Z.
Lemma modest_i32 : forall v, modest v -> i32 v = v.
Proof. intros v [H1 H2]. unfold i32. rewrite Z.mod_small; lia. Qed.

Section Fetch.
Context {SS RS X XO : Type}.
Notation dv := (dev SS RS X).
Notation ent := (@entry XO).
Variable step : dv -> ent -> dv -> Prop.
Variable noise : bytes -> Prop.

(** Up to the run() that reads the next line; [K]: what is known after [s] was
    sent and the payload [p] received. *)
Lemma dialogue_till : forall N p ps d tr d' (K : bytes -> bytes -> dv -> Prop),
  (forall s t x e x', step x e x' -> looks (e_op e) = true -> K s t x -> K s t x' /\ put (e_ev e) = [] /\ payload e = []) ->
  (forall q, p = Some q -> forall s t x e x', step x e x' -> roomy N x e -> aside noise q e -> K s t x -> K (s ++ put (e_ev e)) (t ++ payload e) x') ->
  dialogue step noise N (p :: ps) d tr d' -> forall s t, K s t d ->
  exists tr1 e tr2 d1 d2, tr = tr1 ++ e :: tr2 /\ K (s ++ sent tr1) (t ++ payloads tr1) d1 /\ step d1 e d2 /\ roomy N d1 e /\ hears p e /\ dialogue step noise N ps d2 tr2 d'.
Proof.
  intros N p ps d tr d' K HL HI Hd. remember (p :: ps) as l eqn:El. revert El.
  induction Hd as [|l d e d1 tr d' Hs He Hd IH|q l d e d1 tr d' Hs He Hh Hd IH|p0 l d e d1 tr d' Hs He Hh Hd IH]; intros El s t HK; [discriminate| | |].
  - destruct (HL _ _ _ _ _ Hs He HK) as (HK1 & Hp & Ht). destruct (IH El s t HK1) as (tr1 & e1 & tr2 & x1 & x2 & E & HK2 & R). exists (e :: tr1), e1, tr2, x1, x2.
    split; [rewrite E; reflexivity|]. split; [|exact R]. rewrite sent_cons, payloads_cons, Hp, Ht. exact HK2.
  - injection El as <- <-. pose proof (HI q eq_refl _ _ _ _ _ Hs He Hh HK) as HK1.
    destruct (IH eq_refl _ _ HK1) as (tr1 & e1 & tr2 & x1 & x2 & E & HK2 & R). exists (e :: tr1), e1, tr2, x1, x2.
    split; [rewrite E; reflexivity|]. split; [|exact R]. rewrite sent_cons, payloads_cons, !app_assoc. exact HK2.
  - injection El as -> ->. exists [], e, tr, d, d1. cbn [sent payloads map concat]. rewrite !app_nil_r. splits; auto.
Qed.
Lemma dialogue_rest : forall N d tr d' (K : dv -> Prop),
  (forall x e x', step x e x' -> looks (e_op e) = true -> K x -> K x' /\ put (e_ev e) = [] /\ payload e = []) ->
  dialogue step noise N [] d tr d' -> K d -> sent tr = [] /\ payloads tr = [] /\ K d'.
Proof.
  intros N d tr d' K HL Hd. remember (@nil (option (bytes -> Prop))) as ps eqn:El. revert El.
  induction Hd as [|l d e d1 tr d' Hs He Hd IH|q l d e d1 tr d' Hs He Hh Hd IH|p0 l d e d1 tr d' Hs He Hh Hd IH]; intros El HK; try discriminate.
  - splits; auto.
  - destruct (HL _ _ _ Hs He HK) as (HK1 & Hp & Ht). destruct (IH El HK1) as (Hse & Hpa & R). rewrite sent_cons, payloads_cons, Hp, Ht. splits; auto.
Qed.

(** The modem hands out the data in pieces of these lengths: a run() without
    interrupts in which the driver can ask, the header of the piece (or whatever else
    [hdr] says) with the data behind it, and "OK". *)
Inductive chunks (N : nat) (hdr : Z -> option (bytes -> Prop)) : dv -> list Z -> list ent -> dv -> Prop :=
| ch_nil d : chunks N hdr d [] [] d
| ch_cons d e d1 m ms tr d2 tr2 d' : step d e d1 -> roomy N d e -> hears None e -> e_sch e = [] ->
    dialogue step noise N [hdr m; reply (bs "OK")] d1 tr d2 -> chunks N hdr d2 ms tr2 d' -> chunks N hdr d (m :: ms) (e :: tr ++ tr2) d'.
Lemma chunks_nil : forall N hdr d tr d', chunks N hdr d [] tr d' -> tr = [] /\ d' = d.
Proof. intros N hdr d tr d' H. inversion H; subst. auto. Qed.
End Fetch.

(** What the second half of a run() takes from the port, from what the code did. *)
Lemma olab_taken : forall SS RS X (isok : RS -> bool) says tail ins ch (d d' : dev SS RS X) b t q,
  olab isok says tail ins ch d d' b -> ioeff (io d) (io d') t q -> act_payload b = t.
Proof.
  intros SS RS X isok says tail ins ch d d' b t q Ho Hi.
  assert (H : exists t' q', ioeff (io d) (io d') t' q' /\ act_payload b = t' \/ exists ev, sstep (io d) (io d') ev /\ taken ev = act_payload b).
  { inversion Ho; subst.
    - exists [], []. left. split; [assumption|reflexivity].
    - exists [], ([] ++ q0). left. split; [eapply ioeff_trans with (t1 := []) (t2 := []); eassumption|reflexivity].
    - exists [], ([] ++ q0). left. split; [eapply ioeff_trans with (t1 := []) (t2 := []); eassumption|reflexivity].
    - exists [], []. right. exists ev. split; [assumption|]. assumption.
    - exists tk, []. left. split; [assumption|reflexivity]. }
  destruct H as (t' & q' & [[H1 H2]|(ev & S1 & T1)]).
  - destruct (ioeff_fun _ _ _ _ _ _ Hi H1) as [-> _]. exact H2.
  - destruct (ioeff_ev _ _ _ _ Hi) as (ev2 & S2 & T2 & _). apply sstep_log in S1, S2. rewrite S1 in S2. apply app_inv_head in S2. congruence.
Qed.

(** Only the port and the line buffer differ. *)
Definition shell {SS RS X} (d x : dev SS RS X) : Prop := x = set_io (io x) (set_lbfill (lbfill x) (set_lbuf (lbuf x) d)).

(** The size of a request, as [wp_rx_request], but with more about a refusal. *)
Lemma wp_rx_request_still : forall SS RS X (U : Prop) margin mx (d : dev SS RS X) (Q : _ -> Prop), swf d -> fits (rxsz (io d)) ->
  (forall y, ioeff (io d) y [] [] -> (sched (io d) = [] -> rxsz (io d) - rxav (io d) <= margin \/ ring_space (rbuf d) = 0) ->
     Q (None, set_io y d)) ->
  (forall y n, ioeff (io d) y [] [] -> 0 < ring_space (rbuf d) ->
     n = Z.min (Z.min (Z.min (u64 (Z.of_nat (rxsz (io d)) - Z.of_nat (rxav y) - Z.of_nat margin)) (toReceive d))
                      (Z.of_nat (ring_space (rbuf d)))) mx ->
     (sched (io d) = [] -> y = io d /\ margin < rxsz (io d) - rxav (io d)) ->
     Q (Some n, set_io y d)) ->
  wp U (rx_request_size margin mx d) Q.
Proof.
  intros SS RS X U margin mx d Q H Hfit HQ1 HQ2. unfold rx_request_size. apply wp_bind. apply wp_avail'; [assumption|].
  intros y1 E1 Z1. cbn [rbuf set_io]. fold (rxsz (io d)).
  assert (W1 : serial_wf (ser y1)) by exact (ioeff_wf _ _ _ _ E1). pose proof (rx_le _ W1) as R1.
  destruct (ioeff_caps _ _ _ _ E1) as [C1 _]. unfold fits in Hfit. rewrite (u64_small (Z.of_nat (rxsz (io d)) - Z.of_nat (rxav y1))) by lia.
  destruct (Z.ltb_spec (Z.of_nat margin) (Z.of_nat (rxsz (io d)) - Z.of_nat (rxav y1))).
  - destruct (Nat.ltb_spec 0 (ring_space (rbuf d))).
    + cbn [andb]. apply wp_bind. apply wp_avail'; [exact W1|]. intros y2 E2 Z2. cbn [io set_io] in E2, Z2. rewrite set_io_io.
      cbn [toReceive rbuf set_io wp]. apply HQ2; auto.
      * exact (ioeff_trans _ _ _ _ _ _ _ E1 E2).
      * rewrite !zmin_if. reflexivity.
      * intro Hs. specialize (Z1 Hs). subst y1. specialize (Z2 Hs). subst y2. split; [reflexivity|lia].
    + cbn [andb wp]. apply HQ1; auto. intros _. right. lia.
  - cbn [andb wp]. apply HQ1; auto. intro Hs. left. specialize (Z1 Hs). subst y1. lia.
Qed.
Lemma wp_send_ciprxget2_still : forall SS RS (U : Prop) (d : dev SS RS simx) (Q : _ -> Prop), swf d -> fits (rxsz (io d)) ->
  (0 <= maxrx (ext d) < 100000)%Z -> (0 <= toReceive d)%Z ->
  (forall y, ioeff (io d) y [] [] -> (sched (io d) = [] -> rxsz (io d) - rxav (io d) <= 8 \/ ring_space (rbuf d) = 0) -> Q (false, set_io y d)) ->
  (forall y1 y n, ioeff (io d) y1 [] [] -> wroteb y1 y (ciprxget2_cmd n) -> 0 < ring_space (rbuf d) ->
     n = Z.min (Z.min (Z.min (u64 (Z.of_nat (rxsz (io d)) - Z.of_nat (rxav y1) - 8)) (toReceive d))
                      (Z.of_nat (ring_space (rbuf d)))) (maxrx (ext d)) ->
     (sched (io d) = [] -> y1 = io d /\ 8 < rxsz (io d) - rxav (io d)) ->
     Q (true, set_io y d)) ->
  wp U (sim_send_ciprxget2 d) Q.
Proof.
  intros SS RS U d Q H Hf Hm Ht HQ1 HQ2. unfold sim_send_ciprxget2. apply wp_bind. apply wp_rx_request_still; auto.
  intros y1 n E1 Hsp Hn Hs. pose proof (u64_range (Z.of_nat (rxsz (io d)) - Z.of_nat (rxav y1) - 8)).
  change (Z.of_nat 8) with 8%Z in Hn.
  rewrite sprintf6_ok by lia. cbn [bind].
  apply wp_bind. apply wp_w_many; [wfser|]. intros y2 B2.
  apply wp_bind. apply wp_w_str; [dsimp; wfser|]. intros y3 B3.
  apply wp_bind. apply wp_w_str; [dsimp; wfser|]. intros y4 B4. dsimp. cbn [wp].
  specialize (HQ2 y1 y4 n E1). dsimp. apply HQ2; auto. unfold ciprxget2_cmd.
  eapply wroteb_trans; [exact B2|]. eapply wroteb_trans; [|exact B4].
  rewrite cbody_free in B3 by (apply digits_free, dec_digits). exact B3.
Qed.

Lemma wire_rxsz : forall y y' ev, wire (ser y) (ser y') ev -> rxsz y' = rxsz y.
Proof. intros y y' ev (_ & H & _). unfold rxsz. unfold caps in H. congruence. Qed.

(** For the examples. *)
Definition countedb (P : plat) (w : bytes) (v : Z) : option (bytes -> bool) := Some (fun L => prefixb w L && (number P (skipn (length w) L) =? v)%Z).
Lemma countedb_ok : forall P w v L, prefixb w L && (number P (skipn (length w) L) =? v)%Z = true <-> prefixb w L = true /\ number P (skipn (length w) L) = v.
Proof. intros. rewrite andb_true_iff, Z.eqb_eq. tauto. Qed.
Ltac count_replies := repeat (apply Forall2_cons; [first [exact I|intro; apply countedb_ok|intro; apply iff_refl]|]); apply Forall2_nil.
