(** The Espressif driver: what is written on a connection is sent, if the modem answers (C70). *)
From Coq Require Import String Ascii ZArith List Bool Arith Lia ZifyBool ZifyNat.
From Verif Require Import Base QueueSpec LineSpec SerialSpec Ring RingProofs LineRing LineRingProofs Serial SerialProofs
  SerStep TaskMacros CStr CStrProofs Dev DevProofs SimDev SimProofs SimSpec SimParse Sym DrvStep DrvCommon DrvRun DrvHist DrvHand DrvSend DrvTalk Session HandCheck DevProps
  Espressif EsSpec EsFill EsHist EsThms EsProps EsHand EsSend EsHandProps.
Import ListNotations.
Local Open Scope nat_scope.
Local Notation dv := (dev essend esreply espx).
Local Notation ent := (@entry esop).

(** write(), and a modem that answers: [k] bytes were accepted. *)
Theorem C70_esp_sends : forall P N d e d1 tr d' data n k, se_at_ease P d -> fDisc (fl d) = false -> fData (fl d) = false ->
  ring_ok (wbuf d) -> contents (wbuf d) = [] ->
  se_step P d e d1 -> e_op e = OpWrite data n -> n <= length data -> e_out e = DCount k -> 0 < k ->
  dialogue (se_step P) se_noise N se_send_replies d1 tr d' ->
  22 + k <= N -> (Z.of_nat k < 100000)%Z -> length (announcement false k [CR; LF]) <= N ->
  sent tr = announcement false k [CR; LF] ++ firstn k data /\
  ip_write_buffer_processed d' = true /\ se_at_ease P d' /\ fDisc (fl d') = false /\ fData (fl d') = false /\
  ring_ok (wbuf d') /\ contents (wbuf d') = [] /\ se_params d' = se_params d.
Proof.
  intros P N d e d1 tr d' data n k (R1 & R2 & R3 & R4 & R5) F1 F2 Hok Hct Hs Eo Hn Eout Hk Hd HN H5 Hlen. pose proof Hs as (_ & _ & _ & E & _). rewrite Eo in E.
  destruct (C31_write _ _ _ _ _ _ _ _ _ _ _ _ Hok Hn E) as (Ek & Ec & Eok & Ed). rewrite Eout in Ek. injection Ek as Ek. rewrite <- Ek, Hct in Ec. cbn [app] in Ec.
  assert (Hl : length (firstn k data) = k) by (apply firstn_length_le; destruct (cst d); lia).
  set (w := wbuf d1) in *. set (y := io d1) in *. clearbody w y. subst d1.
  destruct (se_sends P N _ tr d' Hd) as (A1 & A2 & A3 & A4 & A5 & A6 & A7 & A9 & A10 & A11 & A12 & A13); cbn [wbuf set_wbuf] in *; rewrite ?Ec, ?Hl; try assumption; try reflexivity.
  { intro K. rewrite K in Hl. cbn in Hl. lia. }
  rewrite Ec, Hl in A1. split; [exact A1|]. split; [exact A3|]. split; [|splits; auto]. unfold se_at_ease. splits; auto. rewrite A9. exact R3.
Qed.

(** Any number of rounds: the accepted bytes go out, in order, and nothing else. *)
Theorem C70_esp_rounds : forall P N d ws tr d', rounds (se_step P) se_noise N se_send_replies d ws tr d' ->
  se_at_ease P d -> fDisc (fl d) = false -> fData (fl d) = false -> ring_ok (wbuf d) -> contents (wbuf d) = [] ->
  Forall (fun w => 22 + length w <= N /\ (Z.of_nat (length w) < 100000)%Z /\ length (announcement false (length w) [CR; LF]) <= N) ws ->
  sent tr = concat (map (fun w => announcement false (length w) [CR; LF] ++ w) ws) /\
  se_at_ease P d' /\ fDisc (fl d') = false /\ fData (fl d') = false /\ ring_ok (wbuf d') /\ contents (wbuf d') = [] /\ se_params d' = se_params d.
Proof.
  intros P N d ws tr d' Hr H1 H2 H3 H4 H5 Hf.
  refine (rounds_all _ _ _ _ (fun x => se_at_ease P x /\ fDisc (fl x) = false /\ fData (fl x) = false /\ ring_ok (wbuf x) /\ contents (wbuf x) = [] /\ se_params x = se_params d) _ (fun w => announcement false (length w) [CR; LF] ++ w) _ d ws tr d' Hr _ Hf); [|splits; auto].
  cbv beta. intros x e x1 t x2 data n k (K1 & K2 & K3 & K4 & K5 & K6) Hs Eo Hn Ek Hk Hd (F1 & F2 & F3).
  pose proof Hs as (_ & _ & _ & E & _ & _ & Hio & _). rewrite Eo in E, Hio.
  assert (Hl : length (firstn k data) = k).
  { destruct (C31_write _ _ _ _ _ _ _ _ _ _ _ _ K4 Hn E) as (Q & _). rewrite Ek in Q. injection Q as Q. apply firstn_length_le. destruct (cst x); lia. }
  split; [destruct Hio; assumption|]. rewrite Hl in *.
  destruct (C70_esp_sends P N x e x1 t x2 data n k) as (A1 & _ & A3 & A4 & A5 & A6 & A7 & A8); auto.
  split; [exact A1|]. splits; auto; congruence.
Qed.

(** A session: "hello" goes out, with echoes and empty lines in between. *)
Definition se_connects : @script esop := se_prepare ++ call OpConnect :: se_answers ++ runs_ 1.
Definition se_consents : @script esop := runs_ 1 ++ [call OpIsConnected] ++ dialog [crlf (bs "AT+CIPSEND=5"); bs ">"; crlf (bs ""); crlf (bs "SEND OK")] ++ [call OpWriteBufferProcessed].
Definition se_send_check : list (option (bytes -> bool)) := [None; Some (prefixb (bs ">")); Some (prefixb (bs "SEND OK"))].
Definition se_easeb (d : dv) : bool :=
  isopen d && negb (fReset (fl d)) && negb (fLock (fl d)) && negb (rssi d =? INT16_MAX)%Z &&
  negb (se_mac_request PU (emac (ext d))) &&
  ip_is_connected d && fIp (fl d) && match sst d with SEConnected => true | _ => false end && match wait d with None => true | _ => false end && re_ok (rst d).
Lemma se_easeb_ok : forall d, se_easeb d = true -> se_at_ease PU d.
Proof.
  intros d H. unfold se_easeb in H. rewrite !andb_true_iff, !negb_true_iff in H. destruct H as (((((((((H1 & H2) & H3) & H4) & H5) & H6) & H7) & H8) & H9) & H10).
  unfold se_at_ease, se_going. apply Z.eqb_neq in H4. destruct (sst d); try discriminate H8. destruct (wait d); [discriminate|]. destruct (rst d); try discriminate H10. splits; auto.
Qed.

Example C70_esp_case : exists d0 tr0 d e d1 tr d', se_built d0 /\ se_hist PU d0 tr0 d /\ se_at_ease PU d /\ fDisc (fl d) = false /\ fData (fl d) = false /\
  ring_ok (wbuf d) /\ contents (wbuf d) = [] /\ se_step PU d e d1 /\ e_op e = OpWrite (bs "hello") 5 /\ e_out e = DCount 5 /\
  dialogue (se_step PU) se_noise 64 se_send_replies d1 tr d' /\ length (announcement false 5 [CR; LF]) <= 64 /\
  sent tr = bs "AT+CIPSEND=5" ++ [CR; LF] ++ bs "hello".
Proof.
  destruct se_ex_built as (d0 & E0 & Hb).
  set (h := se_connects ++ call (OpWrite (bs "hello") 5) :: se_consents).
  assert (Hrun : exists d outs, d_run (se_driver PU) d0 h = Ok (d, outs)).
  { assert (H : then_ (se_driver PU) se_ex h (fun _ => true) = true) by (vm_compute; reflexivity). unfold then_ in H. rewrite E0 in H.
    destruct (d_run (se_driver PU) d0 h) as [[d outs]|u]; [eauto|discriminate H]. }
  destruct Hrun as (d' & outs & Hrun).
  assert (Hv : se_valid h). { apply (validb_ok _ (fun x => match x with SetSSID p | SetPassword p => strb p | _ => true end)); [intros [p|p| |] H; try exact I; apply strb_ok in H as [s ->]; first [exact I|exists s; reflexivity]|vm_compute; reflexivity]. }
  destruct (se_every_run PU d0 h d' outs Hb Hv Hrun) as (tra & Ha & Em & _). unfold h in Em.
  destruct (hist_part _ _ _ _ _ _ _ _ _ Ha Em) as (tr0 & trb & d & o1 & _ & M0 & Mb & H0 & Hb1 & R1).
  destruct (hist_one _ _ _ _ _ _ _ _ _ Hb1 Mb) as (e & tr & d1 & _ & Eo & Es & Mc & Hs & Hc & Ec). cbn [fst snd call] in Eo, Es, Ec.
  assert (C1 : then_ (se_driver PU) se_ex se_connects (fun x => se_easeb x && negb (fDisc (fl x)) && negb (fData (fl x)) && ring_okb (wbuf x) && (avail (wbuf x) =? 0) &&
    (length (announcement false 5 [CR; LF]) <=? 64) &&
    match d_step (se_driver PU) (OpWrite (bs "hello") 5) [] x with
    Ok (DCount 5, _, y) => talks (se_driver PU) (silentb se_quiet_words) se_plainb 64 se_send_check se_consents y | _ => false end) = true) by (vm_compute; reflexivity).
  apply (then_at _ _ _ _ _ _ _ _ _ _ _ E0 R1) in C1. cbv beta in C1. rewrite Ec, !andb_true_iff, !negb_true_iff in C1.
  destruct C1 as ((((((C1 & C2) & C3) & C4) & C5) & C6) & C8). destruct (e_out e) as [| |k| | |] eqn:Eout; try discriminate C8.
  assert (k = 5) as -> by (destruct k as [|[|[|[|[|[|k]]]]]]; first [reflexivity|discriminate C8]).
  apply se_easeb_ok in C1. apply ring_okb_ok in C4. apply Nat.eqb_eq in C5. apply Nat.leb_le in C6.
  assert (C9 : contents (wbuf d) = []) by (apply length_zero_iff_nil; rewrite contents_length by apply C4; exact C5).
  assert (Hd : dialogue (se_step PU) se_noise 64 se_send_replies d1 tr d').
  { rewrite <- Mc in C8.
    refine (dialogue_same _ _ _ _ _ _ _ _ _ _ _ (talks_dialogue (se_driver PU) (se_shape PU) (se_all False) se_goodx se_noise (silentb se_quiet_words) (fun L => proj1 (silentb_ok _ L)) se_plainb (se_plainb_ok PU) 64 tr d1 d' Hc _ C8) _ _).
    same_replies. }
  exists d0, tr0, d, e, d1, tr, d'. splits; auto.
  destruct (C70_esp_sends PU 64 d e d1 tr d' (bs "hello") 5 5) as (A & _); auto; try (cbn; lia).
Qed.

(** ** Assumptions *)
Print Assumptions C70_esp_sends.
Print Assumptions C70_esp_rounds.
