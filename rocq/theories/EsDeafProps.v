(** The Espressif driver: a modem that announces a piece of zero bytes is not listened
    to any more (C76). *)
From Coq Require Import String Ascii ZArith List Bool Arith Lia ZifyBool ZifyNat.
From Verif Require Import Base QueueSpec LineSpec SerialSpec Ring RingProofs LineRing LineRingProofs Serial SerialProofs
  SerStep TaskMacros CStr CStrProofs Dev DevProofs SimDev SimProofs SimSpec SimParse SimLog Sym DrvStep DrvCommon DrvRun DrvHist DrvHand DrvSend DrvFetch DrvDeaf DrvTalk Session HandCheck DevProps
  Espressif EsSpec EsFill EsMore EsHist EsThms EsHand EsSend EsFetch EsDeaf EsProps EsHandProps EsSendProps EsFetchProps.
Import ListNotations.
Local Open Scope nat_scope.
Local Notation dv := (dev essend esreply espx).
Local Notation ent := (@entry esop).

(** On a TCP connection the modem reports [n] bytes, is asked for them and
    answers with a header for zero bytes.  Whatever is called from then on - run(),
    write(), disconnect(), connect() - and whatever the modem sends: the driver reads
    no byte of it, unless resetStates() is called or the port is closed. *)
Theorem C76_esp_deaf_refuted : forall P N n d tr1 d1 e d2 tr2 d3 tr3 d4, se_vacant P d -> avail (rbuf d) < rsize (rbuf d) ->
  dialogue (se_step P) se_hum N [noticed P n] d tr1 d1 -> se_step P d1 e d2 -> roomy N d1 e -> hears None e -> e_sch e = [] ->
  dialogue (se_step P) se_hum N [headed P 0] d2 tr2 d3 ->
  (0 < n < 2147483648)%Z -> 30 < rxsz (io d) -> 40 <= N ->
  se_hist P d3 tr3 d4 -> Forall (fun e => ~ restarts e) tr3 -> Forall unread tr3.
Proof.
  intros P N n d tr1 d1 e d2 tr2 d3 tr3 d4 (((G1 & G2 & G3 & G4 & G5 & G6) & R2 & R3 & R4 & R5) & Ft & F1 & F2 & F3 & F4 & F5 & F6 & Hv) Hsp H1 Hs Hr Hh He H2 Hn Hrx HN H3 HF.
  assert (H0 : se_on P d se_c0 (rbuf d) d).
  { unfold se_on, se_kept, se_ctl, se_c0, se_tuned. rewrite F1, F2, F3, F4, F5, G4, R2, R3, R4, R5. rewrite Ft. splits; auto. }
  assert (HK : se_mute d3) by (apply (se_zero_mute P N n d tr1 d1 e d2 tr2 d3); auto; unfold modest; lia).
  destruct (se_mute_ever P d3 tr3 d4 H3 HK HF) as [_ HA]. eapply Forall_impl; [|exact HA]. cbv beta. tauto.
Qed.

(** A session: the header is followed by the modem's OK, which stays in the receive
    buffer; disconnect() does not end the connection. *)
Local Ltac notice_replies := repeat (apply Forall2_cons; [first [exact I|intro; apply noticedb_ok|intro; apply iff_refl]|]); apply Forall2_nil.
Definition se_after : @script esop := dialog [crlf (bs ""); crlf (bs "OK")] ++ [call OpDisconnect] ++ dialog [crlf (bs "OK"); crlf (bs "WIFI DISCONNECT")] ++ runs_ 3 ++ [call OpIsIdle].
Example C76_esp_case : exists d0 tr0 d tr1 d1 e d2 tr2 d3 tr3 d4, se_built d0 /\ se_hist PU d0 tr0 d /\ se_vacant PU d /\ avail (rbuf d) < rsize (rbuf d) /\
  dialogue (se_step PU) se_hum 64 [noticed PU 5] d tr1 d1 /\ se_step PU d1 e d2 /\ roomy 64 d1 e /\ hears None e /\ e_sch e = [] /\
  dialogue (se_step PU) se_hum 64 [headed PU 0] d2 tr2 d3 /\ 30 < rxsz (io d) /\
  se_hist PU d3 tr3 d4 /\ Forall (fun e => ~ restarts e) tr3 /\ rxav (io d4) = 27 /\ ip_is_connected d4 = true.
Proof.
  destruct se_ex_built as (d0 & E0 & Hb).
  set (h := se_connects ++ se_reports ++ call (OpRun true) :: modem (bs "+CIPRECVDATA,0:") :: call (OpRun true) :: se_after).
  assert (Hrun : exists d outs, d_run (se_driver PU) d0 h = Ok (d, outs)).
  { assert (H : then_ (se_driver PU) se_ex h (fun _ => true) = true) by (vm_compute; reflexivity). unfold then_ in H. rewrite E0 in H.
    destruct (d_run (se_driver PU) d0 h) as [[d outs]|u]; [eauto|discriminate H]. }
  destruct Hrun as (d2 & outs & Hrun).
  assert (Hv : se_valid h). { apply (validb_ok _ (fun x => match x with SetSSID p | SetPassword p => strb p | _ => true end)); [intros [p|p| |] H; try exact I; apply strb_ok in H as [s ->]; first [exact I|exists s; reflexivity]|vm_compute; reflexivity]. }
  destruct (se_every_run PU d0 h d2 outs Hb Hv Hrun) as (tra & Ha & Em & _).
  assert (Cz : then_ (se_driver PU) se_ex h (fun x => (rxav (io x) =? 27) && ip_is_connected x) = true) by (vm_compute; reflexivity).
  apply (then_at _ _ _ _ _ _ _ _ _ _ _ E0 Hrun) in Cz. cbv beta in Cz. apply andb_true_iff in Cz as [Cz1 Cz2]. apply Nat.eqb_eq in Cz1. unfold h in Em.
  destruct (hist_part _ _ _ _ _ _ _ _ _ Ha Em) as (tr0 & trb & d & o1 & _ & M0 & Mb & H0 & Hb1 & R1).
  destruct (hist_part _ _ _ _ _ _ _ _ _ Hb1 Mb) as (tr1 & trc & d1 & o2 & _ & M1 & Mc & H1 & Hc1 & R2).
  destruct (hist_one _ _ _ _ _ _ _ _ _ Hc1 Mc) as (e & trd & da & _ & Eo & Es & Md & Hs & Hd1 & Ec).
  destruct (hist_one _ _ _ _ _ _ _ _ _ Hd1 Md) as (em & tre & db & _ & Eom & Esm & Me & Hsm & He1 & Ecm).
  destruct (hist_one _ _ _ _ _ _ _ _ _ He1 Me) as (eh & trf & dc & _ & Eoh & Esh & Mf & Hsh & Hf1 & Ech).
  cbn [fst snd call modem] in Eo, Es, Ec, Eom, Esm, Ecm, Eoh, Esh, Ech.
  assert (C1 : then_ (se_driver PU) se_ex se_connects (fun x => se_restb x && (avail (rbuf x) <? rsize (rbuf x)) && (30 <? rxsz (io x)) &&
    se_talk [noticedb PU 5] se_reports x &&
    match d_run (se_driver PU) x se_reports with Ok (y, _) => se_talk [None] (runs_ 1) y &&
      match d_step (se_driver PU) (OpRun true) [] y with Ok (_, _, z) =>
      match d_step (se_driver PU) OpIdle (snd (@modem esop (bs "+CIPRECVDATA,0:"))) z with Ok (_, _, u) =>
      match d_step (se_driver PU) (OpRun true) [] u with Ok (_, ev, v) =>
        se_tunedb u && (match rst u with REWaitCiprecvdata => true | _ => false end) && (match rst v with REWaitCiprecvdata => false | _ => true end) &&
        (txav (io u) + 64 <=? txsz (io u)) && (length (pending u) =? 0) && (if list_eq_dec ascii_dec (taken ev) (bs "+CIPRECVDATA,0:") then true else false)
      | _ => false end | _ => false end | _ => false end | _ => false end) = true) by (vm_compute; reflexivity).
  cbn [snd modem] in C1.
  apply (then_at _ _ _ _ _ _ _ _ _ _ _ E0 R1) in C1. cbv beta in C1. rewrite R2, Ec, Ecm, Ech, !andb_true_iff in C1.
  destruct C1 as ((((C1 & C2) & C3) & C4) & C5 & (((((C6 & C7) & C8) & C9) & C10) & C11)). apply se_restb_ok in C1. apply Nat.ltb_lt in C2, C3.
  destruct (list_eq_dec ascii_dec _ _) as [Ct|]; [clear C11|discriminate C11]. apply se_tunedb_ok in C6 as [C6 Cd]. apply Nat.leb_le in C9. apply Nat.eqb_eq, length_zero_iff_nil in C10.
  assert (Er : rst db = REWaitCiprecvdata) by (destruct (rst db); first [reflexivity|discriminate C7]).
  assert (Er2 : rst dc <> REWaitCiprecvdata) by (destruct (rst dc); first [discriminate C8|discriminate]).
  pose proof (fun tr d d' Hc ps H => talks_dialogue (se_driver PU) (se_shape PU) (se_all False) se_goodx se_hum (silentb se_hum_words) (fun L => proj1 (silentb_ok _ L)) se_plainb (se_plainb_ok PU) 64 tr d d' Hc ps H) as T.
  assert (Hh : hears None e /\ roomy 64 d1 e).
  { assert (Mx : runs_ 1 = map (fun e => (e_op e, e_sch e)) [e]) by (cbn [map]; rewrite Eo, Es; reflexivity). rewrite Mx in C5.
    pose proof (T [e] d1 da (hist_cons _ _ _ _ _ _ _ _ _ Hs (hist_nil _ _ _ _ _)) _ C5) as Q. inversion Q; subst; auto. exfalso. rewrite Eo in *. discriminate. }
  destruct Hh as [Hh Hr]. exists d0, tr0, d, tr1, d1, e, da, [em; eh], dc, trf, d2. splits; auto.
  - rewrite <- M1 in C4. refine (dialogue_same _ _ _ _ _ _ _ _ _ _ _ (T tr1 d d1 H1 _ C4) _ _). notice_replies.
  - apply (dl_look _ _ _ _ _ em db _ _ Hsm); [rewrite Eom; reflexivity|].
    assert (Hro : roomy 64 db eh) by (split; [eauto|exact C9]).
    apply (dl_hear _ _ _ _ _ _ eh dc _ _ Hsh Hro); [|constructor].
    refine (se_reads_header PU 64 db eh dc 0 Hsh Hro C6 Cd Er Er2 C10 _ _); rewrite Ct; [|unfold headed; split; [left; split; reflexivity|split; [vm_compute; split; repeat constructor|vm_compute; reflexivity]]].
    unfold se_solo. rewrite Er. assert (Ety : typ db = TCP) by apply C6. rewrite Ety. vm_compute. reflexivity.
  - apply (free_restarts _ trf). rewrite Mf. vm_compute. reflexivity.
Qed.

(** ** Assumptions *)
Print Assumptions C76_esp_deaf_refuted.
