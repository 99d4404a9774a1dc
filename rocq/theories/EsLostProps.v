(** The Espressif driver: the connection or the network is lost while received data is
    fetched (C83). *)
From Coq Require Import String Ascii ZArith List Bool Arith Lia ZifyBool ZifyNat.
From Verif Require Import Base QueueSpec LineSpec SerialSpec Ring RingProofs LineRing LineRingProofs Serial SerialProofs
  SerStep TaskMacros CStr CStrProofs Dev DevProofs SimDev SimProofs SimSpec SimParse SimLog Sym DrvStep DrvCommon DrvRun DrvHist DrvHand DrvSend DrvFetch DrvDeaf DrvTalk Session HandCheck DevProps
  Espressif EsSpec EsFill EsMore EsHist EsThms EsHand EsSend EsFetch EsDeaf EsLost EsProps EsHandProps EsSendProps EsFetchProps.
Import ListNotations.
Local Open Scope nat_scope.
Local Notation dv := (dev essend esreply espx).
Local Notation ent := (@entry esop).

(** On a TCP connection the modem reports [n] bytes and is asked for them ([e]).
    Whatever is called from then on - run(), write(), disconnect(), connect(), the port
    closed and opened again - and whatever lines arrive, "CLOSED" and "WIFI DISCONNECT"
    among them: nothing is sent any more and isConnected() stays true, until the
    announcement of the data or an error line is read or resetStates() is called. *)
Theorem C83_esp_lost_refuted : forall P N n d tr1 d1 e d2 tr2 d3, se_vacant P d -> avail (rbuf d) < rsize (rbuf d) ->
  dialogue (se_step P) se_hum N [noticed P n] d tr1 d1 -> se_step P d1 e d2 -> roomy N d1 e -> hears None e -> e_sch e = [] ->
  (0 < n < 2147483648)%Z -> 30 < rxsz (io d) -> 40 <= N ->
  se_hist P d2 tr2 d3 -> Forall (fun e => ~ se_release e) tr2 -> sent tr2 = [] /\ ip_is_connected d3 = true.
Proof.
  intros P N n d tr1 d1 e d2 tr2 d3 (((G1 & G2 & G3 & G4 & G5 & G6) & R2 & R3 & R4 & R5) & Ft & F1 & F2 & F3 & F4 & F5 & F6 & Hv) Hsp H1 Hs Hr Hh He Hn Hrx HN H3 HF.
  assert (H0 : se_on P d se_c0 (rbuf d) d).
  { unfold se_on, se_kept, se_ctl, se_c0, se_tuned. rewrite F1, F2, F3, F4, F5, G4, R2, R3, R4, R5. rewrite Ft. splits; auto. }
  assert (HK : se_asked d2) by (apply (se_ask_asked P N n d tr1 d1 e d2); auto; unfold modest; lia).
  destruct (se_asked_ever P d2 tr2 d3 H3 HK HF) as [(_ & _ & _ & _ & K & _) HA]. split; [exact HA|exact K].
Qed.

(** A session: the network is lost after the request; disconnect(), connect() (which is accepted) and
    any number of run() later the connection is still reported. *)
Local Ltac notice_replies := repeat (apply Forall2_cons; [first [exact I|intro; apply noticedb_ok|intro; apply iff_refl]|]); apply Forall2_nil.
Definition se_loses : @script esop := dialog [crlf (bs "CLOSED"); crlf (bs "WIFI DISCONNECT")] ++ runs_ 2 ++ [call OpDisconnect] ++ runs_ 3 ++ [call OpConnect] ++ runs_ 3 ++ [call OpIsIdle; call OpIsConnected].
Example C83_esp_session : se_then TCP (se_reports ++ runs_ 1 ++ se_loses) = Ok ([DBool true; DBool false; DBool true], ["AT+CIPRECVDATA=5"%string]).
Proof. vm_compute. reflexivity. Qed.
Example C83_esp_case : exists d0 tr0 d tr1 d1 e d2 tr2 d3, se_built d0 /\ se_hist PU d0 tr0 d /\ se_vacant PU d /\ avail (rbuf d) < rsize (rbuf d) /\
  dialogue (se_step PU) se_hum 64 [noticed PU 5] d tr1 d1 /\ se_step PU d1 e d2 /\ roomy 64 d1 e /\ hears None e /\ e_sch e = [] /\
  30 < rxsz (io d) /\ se_hist PU d2 tr2 d3 /\ Forall (fun e => ~ se_release e) tr2 /\ sst d3 = SEFinalizeDisconnect /\ fIp (fl d3) = false.
Proof.
  destruct se_ex_built as (d0 & E0 & Hb).
  set (h := se_connects ++ se_reports ++ call (OpRun true) :: se_loses).
  assert (Hrun : exists d outs, d_run (se_driver PU) d0 h = Ok (d, outs)).
  { assert (H : then_ (se_driver PU) se_ex h (fun _ => true) = true) by (vm_compute; reflexivity). unfold then_ in H. rewrite E0 in H.
    destruct (d_run (se_driver PU) d0 h) as [[d outs]|u]; [eauto|discriminate H]. }
  destruct Hrun as (d2 & outs & Hrun).
  assert (Hv : se_valid h). { apply (validb_ok _ (fun x => match x with SetSSID p | SetPassword p => strb p | _ => true end)); [intros [p|p| |] H; try exact I; apply strb_ok in H as [s ->]; first [exact I|exists s; reflexivity]|vm_compute; reflexivity]. }
  destruct (se_every_run PU d0 h d2 outs Hb Hv Hrun) as (tra & Ha & Em & _).
  assert (Cz : then_ (se_driver PU) se_ex h (fun x => match sst x with SEFinalizeDisconnect => true | _ => false end && negb (fIp (fl x))) = true) by (vm_compute; reflexivity).
  apply (then_at _ _ _ _ _ _ _ _ _ _ _ E0 Hrun) in Cz. cbv beta in Cz. apply andb_true_iff in Cz as [Cz1 Cz2]. apply negb_true_iff in Cz2. unfold h in Em.
  destruct (hist_part _ _ _ _ _ _ _ _ _ Ha Em) as (tr0 & trb & d & o1 & _ & M0 & Mb & H0 & Hb1 & R1).
  destruct (hist_part _ _ _ _ _ _ _ _ _ Hb1 Mb) as (tr1 & trc & d1 & o2 & _ & M1 & Mc & H1 & Hc1 & R2).
  destruct (hist_one _ _ _ _ _ _ _ _ _ Hc1 Mc) as (e & trd & da & _ & Eo & Es & Md & Hs & Hd1 & Ec).
  cbn [fst snd call] in Eo, Es, Ec.
  assert (C1 : then_ (se_driver PU) se_ex se_connects (fun x => se_restb x && (avail (rbuf x) <? rsize (rbuf x)) && (30 <? rxsz (io x)) &&
    se_talk [noticedb PU 5] se_reports x &&
    match d_run (se_driver PU) x se_reports with Ok (y, _) => se_talk [None] (runs_ 1) y &&
      match d_step (se_driver PU) (OpRun true) [] y with Ok (_, _, z) => unreleasedb PU se_loses z
      | _ => false end | _ => false end) = true) by (vm_compute; reflexivity).
  apply (then_at _ _ _ _ _ _ _ _ _ _ _ E0 R1) in C1. cbv beta in C1. rewrite R2, Ec, !andb_true_iff in C1.
  destruct C1 as ((((C1 & C2) & C3) & C4) & C5 & C6). apply se_restb_ok in C1. apply Nat.ltb_lt in C2, C3.
  pose proof (fun tr d d' Hc ps H => talks_dialogue (se_driver PU) (se_shape PU) (se_all False) se_goodx se_hum (silentb se_hum_words) (fun L => proj1 (silentb_ok _ L)) se_plainb (se_plainb_ok PU) 64 tr d d' Hc ps H) as T.
  assert (Hh : hears None e /\ roomy 64 d1 e).
  { assert (Mx : runs_ 1 = map (fun e => (e_op e, e_sch e)) [e]) by (cbn [map]; rewrite Eo, Es; reflexivity). rewrite Mx in C5.
    pose proof (T [e] d1 da (hist_cons _ _ _ _ _ _ _ _ _ Hs (hist_nil _ _ _ _ _)) _ C5) as Q. inversion Q; subst; auto. exfalso. rewrite Eo in *. discriminate. }
  destruct Hh as [Hh Hr].
  assert (Hdl : dialogue (se_step PU) se_hum 64 [noticed PU 5] d tr1 d1).
  { rewrite <- M1 in C4. refine (dialogue_same _ _ _ _ _ _ _ _ _ _ _ (T tr1 d d1 H1 _ C4) _ _). notice_replies. }
  exists d0, tr0, d, tr1, d1, e, da, trd, d2. splits; auto.
  - apply (unreleasedb_ok PU da trd d2 Hd1); [|rewrite Md; exact C6].
    pose proof C1 as (((G1 & G2 & G3 & G4 & G5 & G6) & K2 & K3 & K4 & K5) & Ft & F1 & F2 & F3 & F4 & F5 & F6 & Hw).
    apply (se_ask_asked PU 64 5 d tr1 d1 e da); auto; try (unfold modest; lia); try lia.
    unfold se_on, se_kept, se_ctl, se_c0, se_tuned. rewrite F1, F2, F3, F4, F5, G4, K2, K3, K4, K5. rewrite Ft. splits; auto.
  - destruct (sst d2); try discriminate Cz1. reflexivity.
Qed.

(** ** Assumptions *)
Print Assumptions C83_esp_lost_refuted.
