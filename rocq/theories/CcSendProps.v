(** The CC1352P7 driver: what is written on a connection is sent, if the modem answers (C70). *)
From Coq Require Import String Ascii ZArith List Bool Arith Lia ZifyBool ZifyNat.
From Verif Require Import Base QueueSpec LineSpec SerialSpec Ring RingProofs LineRing LineRingProofs Serial SerialProofs
  SerStep TaskMacros CStr CStrProofs Dev DevProofs SimDev SimProofs SimSpec SimParse Sym DrvStep DrvCommon DrvRun DrvHist DrvHand DrvSend DrvTalk Session HandCheck DevProps
  Cc1352 CcSpec CcHist CcThms CcHand CcSend CcProps CcHandProps.
Import ListNotations.
Local Open Scope nat_scope.
Local Notation dv := (dev ccsend ccreply ccx).
Local Notation ent := (@entry ccop).

(** write(), and a modem that answers: [k] bytes were accepted. *)
Theorem C70_cc_sends : forall P N d e d1 tr d' data n k, sc_at_ease P d -> fDisc (fl d) = false -> fData (fl d) = false ->
  ring_ok (wbuf d) -> contents (wbuf d) = [] ->
  sc_step P d e d1 -> e_op e = OpWrite data n -> n <= length data -> e_out e = DCount k -> 0 < k ->
  dialogue (sc_step P) sc_noise N sc_send_replies d1 tr d' ->
  22 + k <= N -> (Z.of_nat k < 100000)%Z -> length (announcement false k [CR; LF]) <= N ->
  sent tr = announcement false k [CR; LF] ++ firstn k data /\
  ip_write_buffer_processed d' = true /\ sc_at_ease P d' /\ fDisc (fl d') = false /\ fData (fl d') = false /\
  ring_ok (wbuf d') /\ contents (wbuf d') = [] /\ sc_params d' = sc_params d.
Proof.
  intros P N d e d1 tr d' data n k (R1 & R2 & R3 & R4 & R5) F1 F2 Hok Hct Hs Eo Hn Eout Hk Hd HN H5 Hlen. pose proof Hs as (_ & _ & _ & E & _). rewrite Eo in E.
  destruct (C31_write _ _ _ _ _ _ _ _ _ _ _ _ Hok Hn E) as (Ek & Ec & Eok & Ed). rewrite Eout in Ek. injection Ek as Ek. rewrite <- Ek, Hct in Ec. cbn [app] in Ec.
  assert (Hl : length (firstn k data) = k) by (apply firstn_length_le; destruct (cst d); lia).
  set (w := wbuf d1) in *. set (y := io d1) in *. clearbody w y. subst d1.
  destruct (sc_sends P N _ tr d' Hd) as (A1 & A2 & A3 & A4 & A5 & A6 & A7 & A9 & A10 & A11 & A12 & A13); cbn [wbuf set_wbuf] in *; rewrite ?Ec, ?Hl; try assumption; try reflexivity.
  { intro K. rewrite K in Hl. cbn in Hl. lia. }
  rewrite Ec, Hl in A1. split; [exact A1|]. split; [exact A3|]. split; [|splits; auto]. unfold sc_at_ease. splits; auto. rewrite A9. exact R3.
Qed.

(** Any number of rounds: the accepted bytes go out, in order, and nothing else. *)
Theorem C70_cc_rounds : forall P N d ws tr d', rounds (sc_step P) sc_noise N sc_send_replies d ws tr d' ->
  sc_at_ease P d -> fDisc (fl d) = false -> fData (fl d) = false -> ring_ok (wbuf d) -> contents (wbuf d) = [] ->
  Forall (fun w => 22 + length w <= N /\ (Z.of_nat (length w) < 100000)%Z /\ length (announcement false (length w) [CR; LF]) <= N) ws ->
  sent tr = concat (map (fun w => announcement false (length w) [CR; LF] ++ w) ws) /\
  sc_at_ease P d' /\ fDisc (fl d') = false /\ fData (fl d') = false /\ ring_ok (wbuf d') /\ contents (wbuf d') = [] /\ sc_params d' = sc_params d.
Proof.
  intros P N d ws tr d' Hr H1 H2 H3 H4 H5 Hf.
  refine (rounds_all _ _ _ _ (fun x => sc_at_ease P x /\ fDisc (fl x) = false /\ fData (fl x) = false /\ ring_ok (wbuf x) /\ contents (wbuf x) = [] /\ sc_params x = sc_params d) _ (fun w => announcement false (length w) [CR; LF] ++ w) _ d ws tr d' Hr _ Hf); [|splits; auto].
  cbv beta. intros x e x1 t x2 data n k (K1 & K2 & K3 & K4 & K5 & K6) Hs Eo Hn Ek Hk Hd (F1 & F2 & F3).
  pose proof Hs as (_ & _ & _ & E & _ & _ & Hio & _). rewrite Eo in E, Hio.
  assert (Hl : length (firstn k data) = k).
  { destruct (C31_write _ _ _ _ _ _ _ _ _ _ _ _ K4 Hn E) as (Q & _). rewrite Ek in Q. injection Q as Q. apply firstn_length_le. destruct (cst x); lia. }
  split; [destruct Hio; assumption|]. rewrite Hl in *.
  destruct (C70_cc_sends P N x e x1 t x2 data n k) as (A1 & _ & A3 & A4 & A5 & A6 & A7 & A8); auto.
  split; [exact A1|]. splits; auto; congruence.
Qed.

(** A session: "hello" goes out, with echoes and empty lines in between. *)
Definition sc_connects : @script ccop := sc_prepare ++ call OpConnect :: sc_answers ++ runs_ 1.
Definition sc_consents : @script ccop := runs_ 1 ++ [call OpIsConnected] ++ dialog [crlf (bs "AT+CIPSEND=5"); bs ">"; crlf (bs ""); crlf (bs "OK")] ++ [call OpWriteBufferProcessed].
Definition sc_send_check : list (option (bytes -> bool)) := [None; Some (prefixb (bs ">")); Some (prefixb (bs "OK"))].
Definition sc_easeb (d : dv) : bool :=
  isopen d && negb (fReset (fl d)) && negb (fLock (fl d)) && negb (rssi d =? INT16_MAX)%Z &&
  negb (mac_request PU (cmac (ext d))) &&
  ip_is_connected d && fIp (fl d) && match sst d with SCConnected => true | _ => false end && match wait d with None => true | _ => false end && rc_ok (rst d).
Lemma sc_easeb_ok : forall d, sc_easeb d = true -> sc_at_ease PU d.
Proof.
  intros d H. unfold sc_easeb in H. rewrite !andb_true_iff, !negb_true_iff in H. destruct H as (((((((((H1 & H2) & H3) & H4) & H5) & H6) & H7) & H8) & H9) & H10).
  unfold sc_at_ease, sc_going. apply Z.eqb_neq in H4. destruct (sst d); try discriminate H8. destruct (wait d); [discriminate|]. destruct (rst d); try discriminate H10. splits; auto.
Qed.

Example C70_cc_case : exists d0 tr0 d e d1 tr d', sc_built d0 /\ sc_hist PU d0 tr0 d /\ sc_at_ease PU d /\ fDisc (fl d) = false /\ fData (fl d) = false /\
  ring_ok (wbuf d) /\ contents (wbuf d) = [] /\ sc_step PU d e d1 /\ e_op e = OpWrite (bs "hello") 5 /\ e_out e = DCount 5 /\
  dialogue (sc_step PU) sc_noise 64 sc_send_replies d1 tr d' /\ length (announcement false 5 [CR; LF]) <= 64 /\
  sent tr = bs "AT+CIPSEND=5" ++ [CR; LF] ++ bs "hello".
Proof.
  destruct sc_ex_built as (d0 & E0 & Hb).
  set (h := sc_connects ++ call (OpWrite (bs "hello") 5) :: sc_consents).
  assert (Hrun : exists d outs, d_run (sc_driver PU) d0 h = Ok (d, outs)).
  { assert (H : then_ (sc_driver PU) sc_ex h (fun _ => true) = true) by (vm_compute; reflexivity). unfold then_ in H. rewrite E0 in H.
    destruct (d_run (sc_driver PU) d0 h) as [[d outs]|u]; [eauto|discriminate H]. }
  destruct Hrun as (d' & outs & Hrun).
  assert (Hv : sc_valid h). { apply (validb_ok _ (fun _ => true)); [intros; exact I|vm_compute; reflexivity]. }
  destruct (sc_every_run PU d0 h d' outs Hb Hv Hrun) as (tra & Ha & Em & _). unfold h in Em.
  destruct (hist_part _ _ _ _ _ _ _ _ _ Ha Em) as (tr0 & trb & d & o1 & _ & M0 & Mb & H0 & Hb1 & R1).
  destruct (hist_one _ _ _ _ _ _ _ _ _ Hb1 Mb) as (e & tr & d1 & _ & Eo & Es & Mc & Hs & Hc & Ec). cbn [fst snd call] in Eo, Es, Ec.
  assert (C1 : then_ (sc_driver PU) sc_ex sc_connects (fun x => sc_easeb x && negb (fDisc (fl x)) && negb (fData (fl x)) && ring_okb (wbuf x) && (avail (wbuf x) =? 0) &&
    (length (announcement false 5 [CR; LF]) <=? 64) &&
    match d_step (sc_driver PU) (OpWrite (bs "hello") 5) [] x with
    Ok (DCount 5, _, y) => talks (sc_driver PU) (silentb sc_quiet_words) (fun _ => true) 64 sc_send_check sc_consents y | _ => false end) = true) by (vm_compute; reflexivity).
  apply (then_at _ _ _ _ _ _ _ _ _ _ _ E0 R1) in C1. cbv beta in C1. rewrite Ec, !andb_true_iff, !negb_true_iff in C1.
  destruct C1 as ((((((C1 & C2) & C3) & C4) & C5) & C6) & C8). destruct (e_out e) as [| |k| | |] eqn:Eout; try discriminate C8.
  assert (k = 5) as -> by (destruct k as [|[|[|[|[|[|k]]]]]]; first [reflexivity|discriminate C8]).
  apply sc_easeb_ok in C1. apply ring_okb_ok in C4. apply Nat.eqb_eq in C5. apply Nat.leb_le in C6.
  assert (C9 : contents (wbuf d) = []) by (apply length_zero_iff_nil; rewrite contents_length by apply C4; exact C5).
  assert (Hp : forall d : dv, true = true -> plain_lines (sc_shape PU) d) by (intros x _; split; [exact whole_ends|intros L H; exact H]).
  assert (Hd : dialogue (sc_step PU) sc_noise 64 sc_send_replies d1 tr d').
  { rewrite <- Mc in C8.
    refine (dialogue_same _ _ _ _ _ _ _ _ _ _ _ (talks_dialogue (sc_driver PU) (sc_shape PU) (sc_all False) sc_goodx sc_noise (silentb sc_quiet_words) (fun L => proj1 (silentb_ok _ L)) (fun _ => true) Hp 64 tr d1 d' Hc _ C8) _ _).
    same_replies. }
  exists d0, tr0, d, e, d1, tr, d'. splits; auto.
  destruct (C70_cc_sends PU 64 d e d1 tr d' (bs "hello") 5 5) as (A & _); auto; try (cbn; lia).
Qed.

(** ** Assumptions *)
Print Assumptions C70_cc_sends.
Print Assumptions C70_cc_rounds.
