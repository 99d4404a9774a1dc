(** The SIM800 driver: what is written on a connection is sent, if the modem answers (C70). *)
From Coq Require Import String Ascii ZArith List Bool Arith Lia ZifyBool ZifyNat.
From Verif Require Import Base QueueSpec LineSpec SerialSpec Ring RingProofs LineRing LineRingProofs Serial SerialProofs
  SerStep TaskMacros CStr CStrProofs Dev DevProofs SimDev SimProofs SimSpec SimParse Sym DrvStep DrvCommon DrvRun DrvHist DrvHand DrvSend SimLog SimHand DrvTalk Session HandCheck DevProps
  Sim800 Sim8Spec Sim8Hist Sim8Thms Sim8Hand Sim8Send Sim7Props Sim8Props Sim8HandProps.
Import ListNotations.
Local Open Scope nat_scope.
Local Notation dv := (dev s8send s8reply simx).
Local Notation ent := (@entry simop).

(** write(), and a modem that answers: [k] bytes were accepted. *)
Theorem C70_sim8_sends : forall P N d e d1 tr d' data n k, s8_at_ease d -> fDisc (fl d) = false -> fData (fl d) = false ->
  ring_ok (wbuf d) -> contents (wbuf d) = [] ->
  s8_step P d e d1 -> e_op e = OpWrite data n -> n <= length data -> e_out e = DCount k -> 0 < k ->
  dialogue (s8_step P) s8_noise N s8_send_replies d1 tr d' ->
  22 + k <= N -> (Z.of_nat k < 100000)%Z -> length (announcement true k [CR; LF]) <= N ->
  sent tr = announcement true k [CR; LF] ++ firstn k data /\
  ip_write_buffer_processed d' = true /\ s8_at_ease d' /\ fDisc (fl d') = false /\ fData (fl d') = false /\
  ring_ok (wbuf d') /\ contents (wbuf d') = [] /\ s8_params d' = s8_params d /\ s8_address d' = s8_address d.
Proof.
  intros P N d e d1 tr d' data n k (R1 & R2 & R3 & R4 & R5 & R6) F1 F2 Hok Hct Hs Eo Hn Eout Hk Hd HN H5 Hlen. pose proof Hs as (_ & _ & _ & E & _). rewrite Eo in E.
  destruct (C31_write _ _ _ _ _ _ _ _ _ _ _ _ Hok Hn E) as (Ek & Ec & Eok & Ed). rewrite Eout in Ek. injection Ek as Ek. rewrite <- Ek, Hct in Ec. cbn [app] in Ec.
  assert (Hl : length (firstn k data) = k) by (apply firstn_length_le; destruct (cst d); lia).
  set (w := wbuf d1) in *. set (y := io d1) in *. clearbody w y. subst d1.
  destruct (s8_sends P N _ tr d' Hd) as (A1 & A2 & A3 & A4 & A5 & A6 & A7 & A8 & A9 & A10 & A11 & A12 & A13 & A14); cbn [wbuf set_wbuf] in *; rewrite ?Ec, ?Hl; try assumption; try reflexivity.
  { intro K. rewrite K in Hl. cbn in Hl. lia. }
  rewrite Ec, Hl in A1. split; [exact A1|]. split; [exact A3|]. split; [|splits; auto]. unfold s8_at_ease. splits; auto. rewrite A9. exact R3.
Qed.

(** Any number of rounds: the accepted bytes go out, in order, and nothing else. *)
Theorem C70_sim8_rounds : forall P N d ws tr d', rounds (s8_step P) s8_noise N s8_send_replies d ws tr d' ->
  s8_at_ease d -> fDisc (fl d) = false -> fData (fl d) = false -> ring_ok (wbuf d) -> contents (wbuf d) = [] ->
  Forall (fun w => 22 + length w <= N /\ (Z.of_nat (length w) < 100000)%Z /\ length (announcement true (length w) [CR; LF]) <= N) ws ->
  sent tr = concat (map (fun w => announcement true (length w) [CR; LF] ++ w) ws) /\
  s8_at_ease d' /\ fDisc (fl d') = false /\ fData (fl d') = false /\ ring_ok (wbuf d') /\ contents (wbuf d') = [] /\ s8_params d' = s8_params d /\ s8_address d' = s8_address d.
Proof.
  intros P N d ws tr d' Hr H1 H2 H3 H4 H5 Hf.
  refine (rounds_all _ _ _ _ (fun x => s8_at_ease x /\ fDisc (fl x) = false /\ fData (fl x) = false /\ ring_ok (wbuf x) /\ contents (wbuf x) = [] /\ s8_params x = s8_params d /\ s8_address x = s8_address d) _ (fun w => announcement true (length w) [CR; LF] ++ w) _ d ws tr d' Hr _ Hf); [|splits; auto].
  cbv beta. intros x e x1 t x2 data n k (K1 & K2 & K3 & K4 & K5 & K6 & K7) Hs Eo Hn Ek Hk Hd (F1 & F2 & F3).
  pose proof Hs as (_ & _ & _ & E & _ & _ & Hio & _). rewrite Eo in E, Hio.
  assert (Hl : length (firstn k data) = k).
  { destruct (C31_write _ _ _ _ _ _ _ _ _ _ _ _ K4 Hn E) as (Q & _). rewrite Ek in Q. injection Q as Q. apply firstn_length_le. destruct (cst x); lia. }
  split; [destruct Hio; assumption|]. rewrite Hl in *.
  destruct (C70_sim8_sends P N x e x1 t x2 data n k) as (A1 & _ & A3 & A4 & A5 & A6 & A7 & A8 & A9); auto.
  split; [exact A1|]. splits; auto; congruence.
Qed.

(** A session: "hello" goes out, with echoes and empty lines in between. *)
Definition s8_connects : @script simop := s8_prepare ++ call OpConnect :: s8_answers ++ runs_ 1.
Definition s8_consents : @script simop := runs_ 1 ++ [call OpIsConnected] ++ dialog [crlf (bs "AT+CIPSEND=0,5"); bs ">"; crlf (bs ""); crlf (bs "0, SEND OK")] ++ [call OpWriteBufferProcessed].
Definition s8_send_check : list (option (bytes -> bool)) := [None; Some (prefixb (bs ">")); Some (prefixb (bs "0, SEND OK"))].
Definition s8_easeb (d : dv) : bool :=
  isopen d && negb (fReset (fl d)) && negb (fLock (fl d)) && negb (rssi d =? INT16_MAX)%Z &&
  match nth_error (idbuf (ext d)) 1 with Some c => Ascii.eqb c (id_code idNone) | None => false end &&
  ip_is_connected d && fIp (fl d) && match sst d with S8Connected => true | _ => false end && match wait d with None => true | _ => false end && r8_ok (rst d).
Lemma s8_easeb_ok : forall d, s8_easeb d = true -> s8_at_ease d.
Proof.
  intros d H. unfold s8_easeb in H. rewrite !andb_true_iff, !negb_true_iff in H. destruct H as (((((((((H1 & H2) & H3) & H4) & H5) & H6) & H7) & H8) & H9) & H10).
  unfold s8_at_ease, s8_going, no_request. destruct (nth_error (idbuf (ext d)) 1) as [c|]; [|discriminate]. apply Ascii.eqb_eq in H5. apply Z.eqb_neq in H4.
  destruct (sst d); try discriminate H8. destruct (wait d); [discriminate|]. destruct (rst d); try discriminate H10. splits; auto. left. congruence.
Qed.

Example C70_sim8_case : exists d0 tr0 d e d1 tr d', s8_built d0 /\ s8_hist PA d0 tr0 d /\ s8_at_ease d /\ fDisc (fl d) = false /\ fData (fl d) = false /\
  ring_ok (wbuf d) /\ contents (wbuf d) = [] /\ s8_step PA d e d1 /\ e_op e = OpWrite (bs "hello") 5 /\ e_out e = DCount 5 /\
  dialogue (s8_step PA) s8_noise 64 s8_send_replies d1 tr d' /\ length (announcement true 5 [CR; LF]) <= 64 /\
  sent tr = bs "AT+CIPSEND=0,5" ++ [CR; LF] ++ bs "hello".
Proof.
  destruct s8_ex_built as (d0 & E0 & Hb).
  set (h := s8_connects ++ call (OpWrite (bs "hello") 5) :: s8_consents).
  assert (Hrun : exists d outs, d_run (s8_driver PA) d0 h = Ok (d, outs)).
  { assert (H : then_ (s8_driver PA) s8_ex h (fun _ => true) = true) by (vm_compute; reflexivity). unfold then_ in H. rewrite E0 in H.
    destruct (d_run (s8_driver PA) d0 h) as [[d outs]|u]; [eauto|discriminate H]. }
  destruct Hrun as (d' & outs & Hrun).
  assert (Hv : s8_valid h). { apply (validb_ok _ (fun x => match x with SetApn p => strb p | _ => true end)); [intros [] H; try exact I; apply strb_ok, H|vm_compute; reflexivity]. }
  destruct (s8_every_run PA d0 h d' outs Hb Hv Hrun) as (tra & Ha & Em & _). unfold h in Em.
  destruct (hist_part _ _ _ _ _ _ _ _ _ Ha Em) as (tr0 & trb & d & o1 & _ & M0 & Mb & H0 & Hb1 & R1).
  destruct (hist_one _ _ _ _ _ _ _ _ _ Hb1 Mb) as (e & tr & d1 & _ & Eo & Es & Mc & Hs & Hc & Ec). cbn [fst snd call] in Eo, Es, Ec.
  assert (C1 : then_ (s8_driver PA) s8_ex s8_connects (fun x => s8_easeb x && negb (fDisc (fl x)) && negb (fData (fl x)) && ring_okb (wbuf x) && (avail (wbuf x) =? 0) &&
    (length (announcement true 5 [CR; LF]) <=? 64) &&
    match d_step (s8_driver PA) (OpWrite (bs "hello") 5) [] x with
    Ok (DCount 5, _, y) => talks (s8_driver PA) (silentb s8_quiet_words) (fun _ => true) 64 s8_send_check s8_consents y | _ => false end) = true) by (vm_compute; reflexivity).
  apply (then_at _ _ _ _ _ _ _ _ _ _ _ E0 R1) in C1. cbv beta in C1. rewrite Ec, !andb_true_iff, !negb_true_iff in C1.
  destruct C1 as ((((((C1 & C2) & C3) & C4) & C5) & C6) & C8). destruct (e_out e) as [| |k| | |] eqn:Eout; try discriminate C8.
  assert (k = 5) as -> by (destruct k as [|[|[|[|[|[|k]]]]]]; first [reflexivity|discriminate C8]).
  apply s8_easeb_ok in C1. apply ring_okb_ok in C4. apply Nat.eqb_eq in C5. apply Nat.leb_le in C6.
  assert (C9 : contents (wbuf d) = []) by (apply length_zero_iff_nil; rewrite contents_length by apply C4; exact C5).
  assert (Hp : forall d : dv, true = true -> plain_lines (s8_shape PA) d) by (intros x _; split; [exact whole_ends|intros L H; exact H]).
  assert (Hd : dialogue (s8_step PA) s8_noise 64 s8_send_replies d1 tr d').
  { rewrite <- Mc in C8.
    refine (dialogue_same _ _ _ _ _ _ _ _ _ _ _ (talks_dialogue (s8_driver PA) (s8_shape PA) s8_all s8_goodx s8_noise (silentb s8_quiet_words) (fun L => proj1 (silentb_ok _ L)) (fun _ => true) Hp 64 tr d1 d' Hc _ C8) _ _).
    same_replies. }
  exists d0, tr0, d, e, d1, tr, d'. splits; auto.
  destruct (C70_sim8_sends PA 64 d e d1 tr d' (bs "hello") 5 5) as (A & _); auto; try (cbn; lia).
Qed.

(** ** Assumptions *)
Print Assumptions C70_sim8_sends.
Print Assumptions C70_sim8_rounds.
