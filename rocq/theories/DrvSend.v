(** Sending what is in the write buffer, all at once. *)
From Coq Require Import String Ascii ZArith List Bool Arith Lia ZifyBool ZifyNat.
From Verif Require Import Base QueueSpec LineSpec SerialSpec Ring RingProofs LineRing LineRingProofs Serial SerialProofs
  SerStep TaskMacros CStr CStrProofs Dev DevProofs SimDev SimProofs Sym DrvStep DrvCommon DrvRun DrvHand.
Import ListNotations.
Local Open Scope nat_scope.
Ltac Zify.zify_post_hook ::= Z.div_mod_to_equations.

(** If all of it fits the transmit buffer, all of it is announced, whatever interrupts happen. *)
Lemma wp_prepare_all : forall SS RS X (U : Prop) ch (d : dev SS RS X) (Q : _ -> Prop), swf d -> fits (txsz (io d)) -> fits (avail (wbuf d)) ->
  txav (io d) + MIN_SPACE_AVAILABLE + avail (wbuf d) <= txsz (io d) ->
  (forall y, wroteb (io d) y (cipsend ch (Z.of_nat (avail (wbuf d)))) ->
     Q (true, set_wait (Some (bs ">")) (set_toWrite (Z.of_nat (avail (wbuf d))) (set_io y d)))) ->
  wp U (at_prepare_sending ch d) Q.
Proof.
  intros SS RS X U ch d Q H Hfit Hfw Hroom HQ. unfold at_prepare_sending. apply wp_bind. apply wp_space; [assumption|]. intros y1 E1.
  destruct (ioeff_caps _ _ _ _ E1) as [_ C1]. destruct (ioeff_av _ _ _ _ E1) as [_ A1]. cbn [length] in A1.
  assert (W1 : serial_wf (ser y1)) by exact (ioeff_wf _ _ _ _ E1).
  unfold fits in Hfit, Hfw. unfold MIN_SPACE_AVAILABLE in *.
  destruct (Nat.ltb_spec (txsz y1 - txav y1) 22) as [Es|Es]; [lia|].
  apply wp_bind. apply wp_space; [exact W1|]. intros y2 E2. cbn [io set_io] in E2.
  rewrite set_io_io. cbn [wbuf set_io].
  destruct (ioeff_caps _ _ _ _ E2) as [_ C2]. destruct (ioeff_av _ _ _ _ E2) as [_ A2]. cbn [length] in A2.
  assert (W2 : serial_wf (ser y2)) by exact (ioeff_wf _ _ _ _ E2).
  rewrite u64_small by lia.
  assert (E12 : ioeff (io d) y2 [] []) by exact (ioeff_trans _ _ _ _ _ _ _ E1 E2).
  apply wp_bind. destruct (Z.ltb_spec (Z.of_nat (txsz y2 - txav y2) - Z.of_nat 22) (Z.of_nat (avail (wbuf d)))); [exfalso; lia|]. cbn [wp].
  set (n := Z.of_nat (avail (wbuf d))) in *.
  apply wp_bind. apply wp_w_str; [exact W2|]. intros y4 B4. cbn [io set_io set_toWrite] in B4.
  change (cbody (bs "AT+CIPSEND=")) with (bs "AT+CIPSEND=") in B4.
  assert (Hfin : forall y5, wroteb y2 y5 (bs "AT+CIPSEND=" ++ (if ch then bs "0," else [])) ->
      wp U (let* d0 := w_str (snprintf6 n) (set_io y5 (set_toWrite n d)) in Ok (true, set_wait (Some (bs ">")) d0))%res Q).
  { intros y5 B5. apply wp_bind. apply wp_w_str; [exact (wroteb_wf _ _ _ B5)|]. intros y6 B6. cbn [io set_io] in B6.
    rewrite set_io_io. cbn [wp].
    replace (set_io y6 (set_toWrite n d)) with (set_toWrite n (set_io y6 d)) by (ddev d; reflexivity).
    apply (HQ y6). eapply ioeff_wroteb; [exact E12|]. unfold cipsend. rewrite app_assoc. eapply wroteb_trans; [exact B5|].
    rewrite cbody_free in B6 by apply snprintf6_free. exact B6. }
  apply wp_bind.
  replace (set_io y4 (set_toWrite n (set_io y2 d))) with (set_io y4 (set_toWrite n d)) by (ddev d; reflexivity).
  destruct ch.
  - apply wp_w_str; [exact (wroteb_wf _ _ _ B4)|]. intros y5 B5. cbn [io set_io] in B5. rewrite set_io_io.
    apply Hfin. eapply wroteb_trans; [exact B4|exact B5].
  - cbn [wp]. apply Hfin. rewrite app_nil_r. exact B4.
Qed.

(** The announced bytes, if they are all there is, leave in order. *)
Lemma wp_send_all : forall SS RS X (U : Prop) (d : dev SS RS X) (Q : _ -> Prop), swf d -> ring_ok (wbuf d) -> 0 < rsize (wbuf d) ->
  toWrite d = Z.of_nat (avail (wbuf d)) -> txav (io d) + avail (wbuf d) <= txsz (io d) ->
  (forall y r, ioeff (io d) y [] (contents (wbuf d)) -> ring_ok r -> rsize r = rsize (wbuf d) -> contents r = [] -> avail r = 0 ->
     Q (set_toWrite (u64 (-1)) (set_wbuf r (set_io y d)))) ->
  wp U (at_send_data d) Q.
Proof.
  intros SS RS X U d Q H Hr Hs Ht Hroom HQ. apply wp_send_data; [exact H|apply Hr|exact Hs|]. rewrite Ht, Nat2Z.id.
  intros y ev r S1 T1 F1 R1 X1 L1 L2 C1 Hw Hz Ha Hc. specialize (C1 Hroom). destruct (Hc Hr (Nat.le_refl _)) as (H1 & H2 & H3). specialize (H3 C1).
  pose proof (contents_length _ (proj1 Hr)) as Hl. rewrite firstn_all2 in H3 by lia. rewrite skipn_all2 in H2 by lia.
  apply HQ; auto; [|lia]. exists ev. splits; auto; [cbn [length]; lia|rewrite Hl; lia].
Qed.

(** An announcement of [n] bytes: "AT+CIPSEND=", the channel if the modem wants one, and [n]. *)
Definition announcement (channel : bool) (n : nat) (tail : bytes) : bytes :=
  bs "AT+CIPSEND=" ++ (if channel then bs "0," else []) ++ dec (Z.of_nat n) ++ tail.
Lemma cipsend_announcement : forall ch n t, (Z.of_nat n < 100000)%Z -> cipsend ch (Z.of_nat n) ++ t = announcement ch n t.
Proof. intros ch n t H. unfold cipsend, announcement. rewrite snprintf6_exact by lia. rewrite <- !app_assoc. reflexivity. Qed.

(** [ring_ok], decided. *)
Definition ring_okb (r : ring ascii) : bool :=
  (length (mem r) =? rsize r) && (avail r <=? rsize r) && (0 <? rsize r) && (rhead r <? rsize r) && (whead r <? rsize r) && (whead r =? idx (rsize r) (rhead r) (avail r)).
Lemma ring_okb_ok : forall r, ring_okb r = true -> ring_ok r.
Proof.
  intros r H. unfold ring_okb in H. rewrite !andb_true_iff in H. destruct H as (((((H1 & H2) & H3) & H4) & H5) & H6).
  apply Nat.eqb_eq in H1, H6. apply Nat.leb_le in H2. apply Nat.ltb_lt in H3, H4, H5. unfold ring_ok, ring_wf. splits; auto; intros; try lia.
Qed.

(** Rounds of write() and answers of the modem; [ws] are the bytes accepted. *)
Section Rounds.
Context {SS RS X XO : Type}.
Notation dv := (dev SS RS X).
Notation ent := (@entry XO).
Variable step : dv -> ent -> dv -> Prop.
Variable noise : bytes -> Prop.
Variable N : nat.
Variable replies : list (option (bytes -> Prop)).

Inductive rounds : dv -> list bytes -> list ent -> dv -> Prop :=
| rs_end d : rounds d [] [] d
| rs_more d e d1 tr d2 data n k ws tr' d' : step d e d1 -> e_op e = OpWrite data n -> n <= length data -> e_out e = DCount k -> 0 < k ->
    dialogue step noise N replies d1 tr d2 -> rounds d2 ws tr' d' -> rounds d (firstn k data :: ws) (e :: tr ++ tr') d'.

(** If each round sends what was accepted, all of them do. *)
Lemma rounds_all : forall (K : dv -> Prop) (fits : bytes -> Prop) (says : bytes -> bytes),
  (forall d e d1 tr d2 data n k, K d -> step d e d1 -> e_op e = OpWrite data n -> n <= length data -> e_out e = DCount k -> 0 < k ->
     dialogue step noise N replies d1 tr d2 -> fits (firstn k data) -> put (e_ev e) = [] /\ sent tr = says (firstn k data) /\ K d2) ->
  forall d ws tr d', rounds d ws tr d' -> K d -> Forall fits ws -> sent tr = concat (map says ws) /\ K d'.
Proof.
  intros K fits says H d ws tr d' Hr. induction Hr as [d|d e d1 tr d2 data n k ws tr' d' Hs Eo Hn Ek Hk Hd Hr IH]; intros HK Hf; [split; [reflexivity|exact HK]|].
  inversion Hf as [|w l F1 F2]; subst. destruct (H _ _ _ _ _ _ _ _ HK Hs Eo Hn Ek Hk Hd F1) as (A & B & C). destruct (IH C F2) as [D E].
  split; [|exact E]. rewrite sent_cons, sent_app, A, B, D. reflexivity.
Qed.
End Rounds.
