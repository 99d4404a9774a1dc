(** The SIM800 driver: lending the port with serialLock() (C80). *)
From Coq Require Import String Ascii ZArith List Bool Arith Lia ZifyBool ZifyNat.
From Verif Require Import Base QueueSpec LineSpec SerialSpec Ring RingProofs LineRing LineRingProofs Serial SerialProofs
  SerStep TaskMacros CStr CStrProofs Dev DevProofs DevProps SimDev SimProofs SimSpec SimParse SimLog Sym DrvStep DrvCommon DrvRun DrvHist DrvActs DrvHand SimHand DrvSend DrvFetch DrvTalk DrvSession Session HandCheck
  Sim800 Sim8Spec Sim8Hist Sim8Thms Sim8More Sim8Hand Sim8Session Sim8Props Sim8HandProps Sim8SessionProps Sim7LockProps.
Import ListNotations.
Local Open Scope nat_scope.
Local Notation dv := (dev s8send s8reply simx).
Local Notation ent := (@entry simop).


Lemma s8_lent_step : forall P d x e x', s8_step P x e x' -> borrows (e_op e) = true -> isopen d = true ->
  (exists y, x = set_io y (on_lock true d)) -> (exists y, x' = set_io y (on_lock true d)) /\ payload e = [].
Proof.
  intros P d x e x' Hs Hb Ho (y & ->). split.
  - pose proof Hs as (_ & _ & _ & E & _). destruct (looks (e_op e)) eqn:El.
    + rewrite (looked _ _ _ _ _ _ _ _ _ _ _ E El). exists (io x'). reflexivity.
    + destruct (called _ _ _ _ _ _ _ E) as (z & d1 & Ex & ->). exists (io x'). destruct (e_op e); try discriminate Hb; try discriminate El; cbn [d_call drv_run s8_driver] in Ex.
      * unfold s8_run in Ex. change (isopen (set_io z (set_io y (on_lock true d)))) with (isopen d) in Ex. rewrite Ho in Ex. cbn [negb] in Ex.
        change (fLock (fl (set_io z (set_io y (on_lock true d))))) with true in Ex. cbn [bind] in Ex. apply ok_inj in Ex. apply pair_eq in Ex as [_ <-]. reflexivity.
      * unfold at_serial_write in Ex. change (fLock (fl (set_io z (set_io y (on_lock true d))))) with true in Ex.
        match type of Ex with context [match ?s with PUninit => _ | PNull => _ | PStr _ => _ end] => destruct s end; try discriminate Ex.
        destruct (s_write_str _ _) as [[k w]|]; [|discriminate Ex]. cbn [bind] in Ex. apply ok_inj in Ex. apply pair_eq in Ex as [_ <-]. reflexivity.
      * unfold at_serial_read in Ex. change (fLock (fl (set_io z (set_io y (on_lock true d))))) with true in Ex.
        destruct (s_read_many _ _) as [[[l k] w]|]; [|discriminate Ex]. cbn [bind] in Ex. apply ok_inj in Ex. apply pair_eq in Ex as [_ <-]. reflexivity.
  - unfold payload. rewrite (proj1 (s8_locked_step P _ e x' Hs eq_refl)). reflexivity.
Qed.
Lemma s8_lent : forall P d x tr x', s8_hist P x tr x' -> Forall (fun e => borrows (e_op e) = true) tr -> isopen d = true ->
  (exists y, x = set_io y (on_lock true d)) -> (exists y, x' = set_io y (on_lock true d)) /\ payloads tr = [].
Proof.
  intros P d x tr x' Hh. induction Hh as [x|x e x1 tr x2 Hs Hh IH]; intros HF Ho Hx; [auto|]. apply Forall_cons_iff in HF as [He HF].
  destruct (s8_lent_step P d x e x1 Hs He Ho Hx) as [H1 H2]. destruct (IH HF Ho H1) as [H3 H4]. rewrite payloads_cons, H2. auto.
Qed.

(** Between two parts of a session the port can be lent: serialLock() succeeds, and whatever is
    sent and received over the port until serialUnlock(), the driver is as before, nothing
    of it becomes readable on the connection, and the session can go on. *)
Theorem C80_sim8_lent : forall P c d e d1 tr d2 e' d3, s8_between c d -> s8_step P d e d1 -> e_op e = OpX SerialLock ->
  s8_hist P d1 tr d2 -> Forall (fun e => borrows (e_op e) = true) tr -> s8_step P d2 e' d3 -> e_op e' = OpX SerialUnlock ->
  e_out e = DBool true /\ s8_between c d3 /\ s8_params d3 = s8_params d /\ s8_address d3 = s8_address d /\ rbuf d3 = rbuf d /\ payloads (e :: tr ++ [e']) = [].
Proof.
  intros P c d e d1 tr d2 e' d3 HB Hs Eo Hh HF Hs' Eo'.
  assert (G : s8_going d /\ wait d = None /\ rst d = R8Ok) by (destruct HB as [R _]; destruct c; [destruct R as (R1 & _ & _ & _ & R2 & R3)|destruct R as (R1 & _ & R2 & R3 & _)]; auto).
  destruct G as ((G1 & G2 & G3 & _) & Gw & Gr).
  pose proof Hs as (_ & _ & _ & E & _). rewrite Eo in E. destruct (called _ _ _ _ _ _ _ E) as (z & x & Ex & Ed). cbn [d_call drv_x s8_driver sim_x] in Ex.
  unfold sim_serial_lock in Ex. change (wait (set_io z d)) with (wait d) in Ex. change (rst (set_io z d)) with (rst d) in Ex. rewrite Gw, Gr in Ex. cbn [r8_ok negb] in Ex.
  apply ok_inj in Ex. apply pair_eq in Ex as [Eb <-].
  destruct (s8_lent P d d1 tr d2 Hh HF G1) as [(y & Ey) Hp]; [exists (io d1); rewrite Ed; reflexivity|].
  pose proof Hs' as (_ & _ & _ & E' & _). rewrite Eo' in E'. destruct (called _ _ _ _ _ _ _ E') as (z' & x' & Ex' & Ed'). cbn [d_call drv_x s8_driver sim_x] in Ex'.
  apply ok_inj in Ex'. apply pair_eq in Ex' as [_ <-].
  assert (E3 : d3 = set_io (io d3) d).
  { rewrite Ed', Ey. clear - G3. destruct d as [? ? ? ? ? ? ? [? ? ? ? ? ? fk]]. cbn in G3. subst. reflexivity. }
  destruct (call_silent _ _ _ _ _ _ _ _ _ _ _ Hs ltac:(rewrite Eo; reflexivity)) as [P1 _].
  destruct (call_silent _ _ _ _ _ _ _ _ _ _ _ Hs' ltac:(rewrite Eo'; reflexivity)) as [P2 _].
  rewrite payloads_cons, payloads_app, payloads_cons, P1, P2, Hp. split; [auto|]. rewrite E3. splits; auto.
Qed.

(** While payload is received serialLock() succeeds too: serialRead() gets data that
    belongs to the connection, and afterwards read() gets the end of the modem's reply
    in its place. *)
Definition s8_half : @script simop :=
  dialog [crlf (bs "+CIPRXGET: 1,0")] ++ runs_ 1 ++ dialog [crlf (bs "+CIPRXGET: 4,0,5"); crlf (bs "OK")] ++ runs_ 1 ++ dialog [crlf (bs "+CIPRXGET: 2,0,5"); bs "he"].
Theorem C80_sim8_refuted : s8_then (s8_half ++ [call (OpX SerialLock)] ++ dialog [bs "llo"] ++ [call (OpSerialRead 9); call (OpX SerialUnlock)] ++
     dialog [crlf (bs ""); crlf (bs "OK")] ++ runs_ 3 ++ [call (OpRead 9)]) =
  Ok ([DBool true; DData (bs "hello") 5; DData ([CR; LF] ++ bs "OK" ++ [CR]) 5], ["AT+CIPRXGET=4,0"; "AT+CIPRXGET=2,0,5"]%string).
Proof. vm_compute. reflexivity. Qed.
(** The same without lending. *)
Example C80_sim8_undisturbed : s8_then (s8_half ++ dialog [bs "llo"; crlf (bs ""); crlf (bs "OK")] ++ runs_ 3 ++ [call (OpRead 9)]) =
  Ok ([DData (bs "hello") 5], ["AT+CIPRXGET=4,0"; "AT+CIPRXGET=2,0,5"; "AT+CIPRXGET=4,0"]%string).
Proof. vm_compute. reflexivity. Qed.
(** Between the parts of a session the port can be lent; what the modem answers then is
    for the borrower only. *)
Example C80_sim8_session : s8_then ([call (OpX SerialLock); call (OpSerialWrite (PStr (bs "AT+CCLK?")))] ++ dialog [crlf (bs "+CCLK: 1")] ++ [call (OpSerialRead 20); call (OpX SerialUnlock)] ++
     runs_ 2 ++ s8_half ++ dialog [bs "llo"; crlf (bs ""); crlf (bs "OK")] ++ runs_ 3 ++ [call (OpRead 9)]) =
  Ok ([DBool true; DCount 8; DData (crlf (bs "+CCLK: 1")) 10; DData (bs "hello") 5], ["AT+CCLK?"; "AT+CIPRXGET=4,0"; "AT+CIPRXGET=2,0,5"; "AT+CIPRXGET=4,0"]%string).
Proof. vm_compute. reflexivity. Qed.

Print Assumptions C80_sim8_lent.
Print Assumptions C80_sim8_refuted.
Print Assumptions C80_sim8_session.
