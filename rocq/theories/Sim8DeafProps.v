(** The SIM800 driver: a modem that announces a piece of zero bytes is not listened
    to any more (C76). *)
From Coq Require Import String Ascii ZArith List Bool Arith Lia ZifyBool ZifyNat.
From Verif Require Import Base QueueSpec LineSpec SerialSpec Ring RingProofs LineRing LineRingProofs Serial SerialProofs
  SerStep TaskMacros CStr CStrProofs Dev DevProofs SimDev SimProofs SimSpec SimParse Sym DrvStep DrvCommon DrvRun DrvHist DrvHand DrvSend DrvFetch DrvDeaf SimLog SimHand DrvTalk Session HandCheck DevProps
  Sim800 Sim8Spec Sim8Hist Sim8Thms Sim8Hand Sim8Send Sim8Fetch Sim8Deaf Sim7Props Sim8Props Sim8HandProps Sim8SendProps Sim8FetchProps.
Import ListNotations.
Local Open Scope nat_scope.
Local Notation dv := (dev s8send s8reply simx).
Local Notation ent := (@entry simop).

(** The modem reports data, says that there are [n] bytes, is asked for them and
    answers with a header for zero bytes.  Whatever is called from then on - run(),
    write(), disconnect(), connect() - and whatever the modem sends: the driver reads
    no byte of it, unless resetStates() is called or the port is closed. *)
Theorem C76_sim8_deaf_refuted : forall P N n d tr1 d1 e d2 tr2 d3 tr3 d4, s8_vacant d -> avail (rbuf d) < rsize (rbuf d) ->
  dialogue (s8_step P) s8_hum N (s8_fetch_replies P n) d tr1 d1 -> s8_step P d1 e d2 -> roomy N d1 e -> hears None e -> e_sch e = [] ->
  dialogue (s8_step P) s8_hum N [counted P (bs "+CIPRXGET: 2,0,") 0] d2 tr2 d3 ->
  (0 < n < 2147483648)%Z -> 8 < rxsz (io d) -> 40 <= N ->
  s8_hist P d3 tr3 d4 -> Forall (fun e => ~ restarts e) tr3 -> Forall unread tr3.
Proof.
  intros P N n d tr1 d1 e d2 tr2 d3 tr3 d4 ((R1 & R2 & R3 & R4 & R5 & R6) & F1 & F2 & F3 & F4 & F5 & F6 & Hv) Hsp H1 Hs Hr Hh He H2 Hn Hrx HN H3 HF.
  assert (H0 : s8_on d s8_c0 (rbuf d) d).
  { unfold s8_on, s8_kept, s8_ctl, s8_c0. rewrite F1, F2, F3, F4, F5, R3, R4, R5, R6. splits; auto. }
  assert (HK : s8_deaf d3) by (apply (s8_zero_deaf P N n d tr1 d1 e d2 tr2 d3); auto; unfold modest; lia).
  destruct (s8_deaf_ever P d3 tr3 d4 H3 HK HF) as [_ HA]. eapply Forall_impl; [|exact HA]. cbv beta. tauto.
Qed.

(** A session: the header is followed by the modem's OK, which stays in the receive
    buffer; disconnect() does not end the connection. *)
Definition s8_zero : @script simop := dialog [crlf (bs "+CIPRXGET: 2,0,0")].
Definition s8_after : @script simop := dialog [crlf (bs ""); crlf (bs "OK")] ++ [call OpDisconnect] ++ dialog [crlf (bs "OK"); crlf (bs "0, CLOSE OK")] ++ runs_ 3 ++ [call OpIsIdle].
Example C76_sim8_case : exists d0 tr0 d tr1 d1 e d2 tr2 d3 tr3 d4, s8_built d0 /\ s8_hist PA d0 tr0 d /\ s8_vacant d /\ avail (rbuf d) < rsize (rbuf d) /\
  dialogue (s8_step PA) s8_hum 64 (s8_fetch_replies PA 5) d tr1 d1 /\ s8_step PA d1 e d2 /\ roomy 64 d1 e /\ hears None e /\ e_sch e = [] /\
  dialogue (s8_step PA) s8_hum 64 [counted PA (bs "+CIPRXGET: 2,0,") 0] d2 tr2 d3 /\ 8 < rxsz (io d) /\
  s8_hist PA d3 tr3 d4 /\ Forall (fun e => ~ restarts e) tr3 /\ rxav (io d4) = 23 /\ ip_is_connected d4 = true.
Proof.
  destruct s8_ex_built as (d0 & E0 & Hb).
  set (h := s8_connects ++ s8_reports ++ call (OpRun true) :: s8_zero ++ s8_after).
  assert (Hrun : exists d outs, d_run (s8_driver PA) d0 h = Ok (d, outs)).
  { assert (H : then_ (s8_driver PA) s8_ex h (fun _ => true) = true) by (vm_compute; reflexivity). unfold then_ in H. rewrite E0 in H.
    destruct (d_run (s8_driver PA) d0 h) as [[d outs]|u]; [eauto|discriminate H]. }
  destruct Hrun as (d4 & outs & Hrun).
  assert (Hv : s8_valid h). { apply (validb_ok _ (fun x => match x with SetApn p => strb p | _ => true end)); [intros [] H; try exact I; apply strb_ok, H|vm_compute; reflexivity]. }
  destruct (s8_every_run PA d0 h d4 outs Hb Hv Hrun) as (tra & Ha & Em & _).
  assert (Cz : then_ (s8_driver PA) s8_ex h (fun x => (rxav (io x) =? 23) && ip_is_connected x) = true) by (vm_compute; reflexivity).
  apply (then_at _ _ _ _ _ _ _ _ _ _ _ E0 Hrun) in Cz. cbv beta in Cz. apply andb_true_iff in Cz as [Cz1 Cz2]. apply Nat.eqb_eq in Cz1. unfold h in Em.
  destruct (hist_part _ _ _ _ _ _ _ _ _ Ha Em) as (tr0 & trb & d & o1 & _ & M0 & Mb & H0 & Hb1 & R1).
  destruct (hist_part _ _ _ _ _ _ _ _ _ Hb1 Mb) as (tr1 & trc & d1 & o2 & _ & M1 & Mc & H1 & Hc1 & R2).
  destruct (hist_one _ _ _ _ _ _ _ _ _ Hc1 Mc) as (e & trd & d2 & _ & Eo & Es & Md & Hs & Hd1 & Ec). cbn [fst snd call] in Eo, Es, Ec.
  destruct (hist_part _ _ _ _ _ _ _ _ _ Hd1 Md) as (tr2 & tr3 & d3 & o3 & _ & M2 & M3 & H2 & H3 & R3).
  assert (C1 : then_ (s8_driver PA) s8_ex s8_connects (fun x => s8_restb x && (avail (rbuf x) <? rsize (rbuf x)) && (8 <? rxsz (io x)) &&
    s8_talk [Some (prefixb (bs "+CIPRXGET: 1,0")); None; countedb PA (bs "+CIPRXGET: 4,0,") 5; Some (prefixb (bs "OK"))] s8_reports x &&
    match d_run (s8_driver PA) x s8_reports with Ok (y, _) => s8_talk [None] (runs_ 1) y &&
      match d_step (s8_driver PA) (OpRun true) [] y with Ok (_, _, z) => s8_talk [countedb PA (bs "+CIPRXGET: 2,0,") 0] s8_zero z
      | _ => false end | _ => false end) = true) by (vm_compute; reflexivity).
  apply (then_at _ _ _ _ _ _ _ _ _ _ _ E0 R1) in C1. cbv beta in C1. rewrite R2, Ec, !andb_true_iff in C1.
  destruct C1 as ((((C1 & C2) & C3) & C4) & C5 & C6). apply s8_restb_ok in C1. apply Nat.ltb_lt in C2, C3.
  assert (Hp : forall d : dv, true = true -> plain_lines (s8_shape PA) d) by (intros x _; split; [exact whole_ends|intros L H; exact H]).
  pose proof (fun tr d d' Hc ps H => talks_dialogue (s8_driver PA) (s8_shape PA) s8_all s8_goodx s8_hum (silentb s8_hum_words) (fun L => proj1 (silentb_ok _ L)) (fun _ => true) Hp 64 tr d d' Hc ps H) as T.
  assert (Hh : hears None e /\ roomy 64 d1 e).
  { assert (Me : runs_ 1 = map (fun e => (e_op e, e_sch e)) [e]) by (cbn [map]; rewrite Eo, Es; reflexivity). rewrite Me in C5.
    pose proof (T [e] d1 d2 (hist_cons _ _ _ _ _ _ _ _ _ Hs (hist_nil _ _ _ _ _)) _ C5) as Q. inversion Q; subst; auto. exfalso. rewrite Eo in *. discriminate. }
  destruct Hh as [Hh Hr]. exists d0, tr0, d, tr1, d1, e, d2, tr2, d3, tr3, d4. splits; auto.
  - rewrite <- M1 in C4. refine (dialogue_same _ _ _ _ _ _ _ _ _ _ _ (T tr1 d d1 H1 _ C4) _ _). count_replies.
  - rewrite <- M2 in C6. refine (dialogue_same _ _ _ _ _ _ _ _ _ _ _ (T tr2 d2 d3 H2 _ C6) _ _). count_replies.
  - apply (free_restarts _ tr3). rewrite M3. vm_compute. reflexivity.
Qed.

(** ** Assumptions *)
Print Assumptions C76_sim8_deaf_refuted.
