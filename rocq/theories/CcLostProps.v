(** The CC1352P7 driver: the connection is lost while received data is
    fetched (C83). *)
From Coq Require Import String Ascii ZArith List Bool Arith Lia ZifyBool ZifyNat.
From Verif Require Import Base QueueSpec LineSpec SerialSpec Ring RingProofs LineRing LineRingProofs Serial SerialProofs
  SerStep TaskMacros CStr CStrProofs Dev DevProofs SimDev SimProofs SimSpec SimParse SimLog Sym DrvStep DrvCommon DrvRun DrvHist DrvHand DrvSend DrvFetch DrvDeaf DrvTalk Session HandCheck DevProps
  Cc1352 CcSpec CcHist CcThms CcHand CcSend CcFetch CcDeaf CcLost CcProps CcHandProps CcSendProps CcFetchProps.
Import ListNotations.
Local Open Scope nat_scope.
Local Notation dv := (dev ccsend ccreply ccx).
Local Notation ent := (@entry ccop).

(** The module reports [n] bytes and is asked for them ([e]).
    Whatever is called from then on - run(), write(), disconnect(), connect(), the port
    closed and opened again - and whatever lines arrive, "CLOSED"
    among them: nothing is sent any more and isConnected() stays true, until the
    announcement of the data or an error line is read or resetStates() is called. *)
Theorem C83_cc_lost_refuted : forall P N n d tr1 d1 e d2 tr2 d3, sc_vacant P d -> avail (rbuf d) < rsize (rbuf d) ->
  dialogue (sc_step P) sc_hum N [numbered P (bs "+IPD") 5 n] d tr1 d1 -> sc_step P d1 e d2 -> roomy N d1 e -> hears None e -> e_sch e = [] ->
  (0 < n < 2147483648)%Z -> 30 < rxsz (io d) -> 40 <= N ->
  sc_hist P d2 tr2 d3 -> Forall (fun e => ~ sc_release e) tr2 -> sent tr2 = [] /\ ip_is_connected d3 = true.
Proof.
  intros P N n d tr1 d1 e d2 tr2 d3 (((G1 & G2 & G3 & G4 & G5 & G6) & R2 & R3 & R4 & R5) & F1 & F2 & F3 & F4 & F5 & F6 & Hv) Hsp H1 Hs Hr Hh He Hn Hrx HN H3 HF.
  assert (H0 : sc_on P d sc_c0 (rbuf d) d).
  { unfold sc_on, sc_kept, sc_ctl, sc_c0, sc_tuned. rewrite F1, F2, F3, F4, F5, G4, R2, R3, R4, R5. splits; auto. }
  assert (HK : sc_asked d2) by (apply (sc_ask_asked P N n d tr1 d1 e d2); auto; unfold modest; lia).
  destruct (sc_asked_ever P d2 tr2 d3 H3 HK HF) as [(_ & _ & _ & _ & K & _) HA]. split; [exact HA|exact K].
Qed.

(** A session: the connection is lost after the request; disconnect(), connect() (which is accepted) and
    any number of run() later the connection is still reported. *)
Local Ltac number_replies := repeat (apply Forall2_cons; [first [exact I|intro; apply numberedb_ok|intro; apply iff_refl]|]); apply Forall2_nil.
Definition sc_loses : @script ccop := dialog [crlf (bs "CLOSED")] ++ runs_ 2 ++ [call OpDisconnect] ++ runs_ 3 ++ [call OpConnect] ++ runs_ 3 ++ [call OpIsIdle; call OpIsConnected].
Example C83_cc_session : sc_then (sc_reports ++ runs_ 1 ++ sc_loses) = Ok ([DBool true; DBool false; DBool true], ["AT+CIPRECVDATA=5"%string]).
Proof. vm_compute. reflexivity. Qed.
Example C83_cc_case : exists d0 tr0 d tr1 d1 e d2 tr2 d3, sc_built d0 /\ sc_hist PU d0 tr0 d /\ sc_vacant PU d /\ avail (rbuf d) < rsize (rbuf d) /\
  dialogue (sc_step PU) sc_hum 64 [numbered PU (bs "+IPD") 5 5] d tr1 d1 /\ sc_step PU d1 e d2 /\ roomy 64 d1 e /\ hears None e /\ e_sch e = [] /\
  30 < rxsz (io d) /\ sc_hist PU d2 tr2 d3 /\ Forall (fun e => ~ sc_release e) tr2 /\ fIp (fl d3) = false.
Proof.
  destruct sc_ex_built as (d0 & E0 & Hb).
  set (h := sc_connects ++ sc_reports ++ call (OpRun true) :: sc_loses).
  assert (Hrun : exists d outs, d_run (sc_driver PU) d0 h = Ok (d, outs)).
  { assert (H : then_ (sc_driver PU) sc_ex h (fun _ => true) = true) by (vm_compute; reflexivity). unfold then_ in H. rewrite E0 in H.
    destruct (d_run (sc_driver PU) d0 h) as [[d outs]|u]; [eauto|discriminate H]. }
  destruct Hrun as (d2 & outs & Hrun).
  assert (Hv : sc_valid h) by (apply (validb_ok _ (fun _ => true)); [intros; exact I|vm_compute; reflexivity]).
  destruct (sc_every_run PU d0 h d2 outs Hb Hv Hrun) as (tra & Ha & Em & _).
  assert (Cz : then_ (sc_driver PU) sc_ex h (fun x => negb (fIp (fl x))) = true) by (vm_compute; reflexivity).
  apply (then_at _ _ _ _ _ _ _ _ _ _ _ E0 Hrun) in Cz. cbv beta in Cz. apply negb_true_iff in Cz. unfold h in Em.
  destruct (hist_part _ _ _ _ _ _ _ _ _ Ha Em) as (tr0 & trb & d & o1 & _ & M0 & Mb & H0 & Hb1 & R1).
  destruct (hist_part _ _ _ _ _ _ _ _ _ Hb1 Mb) as (tr1 & trc & d1 & o2 & _ & M1 & Mc & H1 & Hc1 & R2).
  destruct (hist_one _ _ _ _ _ _ _ _ _ Hc1 Mc) as (e & trd & da & _ & Eo & Es & Md & Hs & Hd1 & Ec).
  cbn [fst snd call] in Eo, Es, Ec.
  assert (C1 : then_ (sc_driver PU) sc_ex sc_connects (fun x => sc_restb x && (avail (rbuf x) <? rsize (rbuf x)) && (30 <? rxsz (io x)) &&
    sc_talk [numberedb PU (bs "+IPD") 5 5] sc_reports x &&
    match d_run (sc_driver PU) x sc_reports with Ok (y, _) => sc_talk [None] (runs_ 1) y &&
      match d_step (sc_driver PU) (OpRun true) [] y with Ok (_, _, z) => unreleasedb PU sc_loses z
      | _ => false end | _ => false end) = true) by (vm_compute; reflexivity).
  apply (then_at _ _ _ _ _ _ _ _ _ _ _ E0 R1) in C1. cbv beta in C1. rewrite R2, Ec, !andb_true_iff in C1.
  destruct C1 as ((((C1 & C2) & C3) & C4) & C5 & C6). apply sc_restb_ok in C1. apply Nat.ltb_lt in C2, C3.
  assert (Hp : forall d : dv, true = true -> plain_lines (sc_shape PU) d) by (intros x _; split; [exact whole_ends|intros L H; exact H]).
  pose proof (fun tr d d' Hc ps H => talks_dialogue (sc_driver PU) (sc_shape PU) (sc_all False) sc_goodx sc_hum (silentb sc_hum_words) (fun L => proj1 (silentb_ok _ L)) (fun _ => true) Hp 64 tr d d' Hc ps H) as T.
  assert (Hh : hears None e /\ roomy 64 d1 e).
  { assert (Mx : runs_ 1 = map (fun e => (e_op e, e_sch e)) [e]) by (cbn [map]; rewrite Eo, Es; reflexivity). rewrite Mx in C5.
    pose proof (T [e] d1 da (hist_cons _ _ _ _ _ _ _ _ _ Hs (hist_nil _ _ _ _ _)) _ C5) as Q. inversion Q; subst; auto. exfalso. rewrite Eo in *. discriminate. }
  destruct Hh as [Hh Hr].
  assert (Hdl : dialogue (sc_step PU) sc_hum 64 [numbered PU (bs "+IPD") 5 5] d tr1 d1).
  { rewrite <- M1 in C4. refine (dialogue_same _ _ _ _ _ _ _ _ _ _ _ (T tr1 d d1 H1 _ C4) _ _). number_replies. }
  exists d0, tr0, d, tr1, d1, e, da, trd, d2. splits; auto.
  - apply (unreleasedb_ok PU da trd d2 Hd1); [|rewrite Md; exact C6].
    pose proof C1 as (((G1 & G2 & G3 & G4 & G5 & G6) & K2 & K3 & K4 & K5) & F1 & F2 & F3 & F4 & F5 & F6 & Hw).
    apply (sc_ask_asked PU 64 5 d tr1 d1 e da); auto; try (unfold modest; lia); try lia.
    unfold sc_on, sc_kept, sc_ctl, sc_c0, sc_tuned. rewrite F1, F2, F3, F4, F5, G4, K2, K3, K4, K5. splits; auto.
Qed.

(** ** Assumptions *)
Print Assumptions C83_cc_lost_refuted.
