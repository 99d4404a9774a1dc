(** The Espressif driver on UDP and SSL connections: the datagrams the module sends without
    being asked become readable (C75). *)
From Coq Require Import String Ascii ZArith List Bool Arith Lia ZifyBool ZifyNat.
From Verif Require Import Base QueueSpec LineSpec SerialSpec Ring RingProofs LineRing LineRingProofs Serial SerialProofs
  SerStep TaskMacros CStr CStrProofs Dev DevProofs SimDev SimProofs SimSpec SimParse SimLog Sym DrvStep DrvCommon DrvRun DrvHist DrvHand DrvSend DrvFetch DrvTalk Session HandCheck DevProps
  Espressif EsSpec EsFill EsMore EsHist EsThms EsHand EsSend EsFetch EsGram EsProps EsHandProps EsSendProps EsFetchProps.
Import ListNotations.
Local Open Scope nat_scope.
Local Notation dv := (dev essend esreply espx).
Local Notation ent := (@entry esop).

(** Connected, not by TCP, with nothing to do. *)
Definition sg_vacant (P : plat) (d : dv) : Prop :=
  se_at_ease P d /\ typ d <> TCP /\ fDisc (fl d) = false /\ toReceive d = 0%Z /\ toRead d = 0%Z /\ fLine (fl d) = true /\
  ring_ok (rbuf d) /\ avail (wbuf d) = 0.
Lemma sg_vacant_on : forall P d, sg_vacant P d -> sg_state P d 0 (rbuf d) d.
Proof.
  intros P d (((G1 & G2 & G3 & G4 & G5 & G6) & R2 & R3 & R4 & R5) & Ft & F1 & F3 & F4 & F5 & F6 & Hv).
  split; [|exact F6]. left. split; [reflexivity|]. split; [|splits; auto; discriminate]. unfold sg_keep, sg_tuned. rewrite F1, R3. splits; auto.
Qed.

(** Datagrams of the sizes [ns] are announced, one after the other, in any number: nothing
    is sent, and at any time the bytes received are in the read buffer, in order and complete
    up to the last datagram: of the last, all or none. *)
Theorem C75_esp_datagrams : forall P N ns d tr d', sg_vacant P d -> feed P N d ns tr d' ->
  Forall (fun n => (0 < n < 2147483648)%Z) ns -> (Z.of_nat (avail (rbuf d)) + fold_right Z.add 0%Z ns <= Z.of_nat (rsize (rbuf d)))%Z -> 20 <= N ->
  sent tr = [] /\ contents (rbuf d') = contents (rbuf d) ++ payloads tr /\
  (Z.of_nat (length (payloads tr)) = fold_right Z.add 0%Z ns \/ Z.of_nat (length (payloads tr)) = fold_right Z.add 0%Z (removelast ns)) /\
  ring_ok (rbuf d') /\ ip_is_connected d' = true /\ (ext d', wbuf d', typ d', host d', port d', rsize (rbuf d')) = (ext d, wbuf d, typ d, host d, port d, rsize (rbuf d)).
Proof.
  intros P N ns d tr d' Hd Hf Hns Hfit HN. pose proof (sg_vacant_on P d Hd) as H0. assert (Hv : avail (wbuf d) = 0) by apply Hd.
  destruct (sg_feed P N d d ns tr d' Hf Hv HN Hns 0%Z (rbuf d) H0 ltac:(lia)) as (S & m & r & Hst & Hl & Hc & Hz & Hm). split; [exact S|].
  assert (K : rbuf d' = r /\ sg_keep P d d') by (destruct Hst as [[[_ K]|[_ K]] _]; split; apply K). destruct K as [Er K]. rewrite Er.
  splits; auto.
  - destruct Hm as [->|Hm]; [left; lia|]. destruct ns as [|a ns]; [left; cbn in *; lia|]. right.
    assert (E : fold_right Z.add 0%Z (a :: ns) = (fold_right Z.add 0%Z (removelast (a :: ns)) + last (a :: ns) 0%Z)%Z).
    { rewrite (app_removelast_last 0%Z (l := a :: ns)) at 1 by discriminate. generalize (removelast (a :: ns)). intro l. induction l as [|b l IH]; cbn [app fold_right]; lia. }
    lia.
  - apply Hst.
  - apply K.
  - destruct K as (_ & _ & _ & K & _). congruence.
Qed.

(** The last datagram is received by the second run() at the latest, if its bytes
    are in the port's buffer then. *)
Theorem C75_esp_datagram_taken : forall P N ns d tr d1 e1 d2 e2 d3, sg_vacant P d -> feed P N d ns tr d1 ->
  Forall (fun n => (0 < n < 2147483648)%Z) ns -> (Z.of_nat (avail (rbuf d)) + fold_right Z.add 0%Z ns <= Z.of_nat (rsize (rbuf d)))%Z -> 20 <= N ->
  se_step P d1 e1 d2 -> roomy N d1 e1 -> hears None e1 \/ hears (Some se_hum) e1 ->
  se_step P d2 e2 d3 -> roomy N d2 e2 -> hears None e2 \/ hears (Some se_hum) e2 ->
  (fold_right Z.add 0%Z ns - Z.of_nat (length (payloads (tr ++ [e1]))) <= Z.of_nat (rxav (io d2)))%Z ->
  contents (rbuf d3) = contents (rbuf d) ++ payloads (tr ++ [e1; e2]) /\ Z.of_nat (length (payloads (tr ++ [e1; e2]))) = fold_right Z.add 0%Z ns /\
  sent (tr ++ [e1; e2]) = [] /\ fLine (fl d3) = true /\ toRead d3 = 0%Z /\ ip_is_connected d3 = true.
Proof.
  intros P N ns d tr d1 e1 d2 e2 d3 Hd Hf Hns Hfit HN Hs1 Hr1 Hh1 Hs2 Hr2 Hh2 Hav. pose proof (sg_vacant_on P d Hd) as H0. assert (Hv : avail (wbuf d) = 0) by apply Hd.
  destruct (sg_feed P N d d ns tr d1 Hf Hv HN Hns 0%Z (rbuf d) H0 ltac:(lia)) as (S & m & r & Hst & Hl & Hc & Hz & Hm).
  rewrite payloads_app in *. rewrite sent_app, S. cbn [app] in *. rewrite sent_cons, payloads_cons in *. rewrite sent_cons, payloads_cons. change (payloads []) with (@nil ascii) in *. change (sent []) with (@nil ascii). rewrite !app_nil_r in *. rewrite app_length in Hav. rewrite !app_length.
  pose proof (sg_feed P N d d ns tr d1 Hf Hv HN Hns 0%Z (rbuf d) H0 ltac:(lia)) as _.
  assert (Hok : ring_ok r) by apply Hst.
  assert (Ho0 : ring_ok (rbuf d)) by apply H0.
  assert (Hfr : (Z.of_nat (avail r) + m <= Z.of_nat (rsize r))%Z).
  { rewrite Hz. rewrite <- (contents_length _ (proj1 Hok)), Hc, app_length, (contents_length _ (proj1 Ho0)). lia. }
  assert (Hend : forall x e x' q, sg_on P d 0 true q x -> se_step P x e x' -> roomy N x e -> hears None e \/ hears (Some se_hum) e -> sg_on P d 0 true q x' /\ put (e_ev e) = [] /\ payload e = []).
  { intros x e x' q K Hs Hr Hh. exact (sg_run_idle P N d q x e x' Hs Hr Hh K Hv HN). }
  assert (Hgoal : forall q, sg_on P d 0 true q d3 -> contents q = contents (rbuf d) ++ payloads tr ++ payload e1 ++ payload e2 ->
    (Z.of_nat (length (payloads tr)) + Z.of_nat (length (payload e1)) + Z.of_nat (length (payload e2)) = fold_right Z.add 0%Z ns)%Z -> put (e_ev e1) = [] -> put (e_ev e2) = [] ->
    contents (rbuf d3) = contents (rbuf d) ++ payloads tr ++ payload e1 ++ payload e2 /\ Z.of_nat (length (payloads tr) + (length (payload e1) + length (payload e2))) = fold_right Z.add 0%Z ns /\
    put (e_ev e1) ++ put (e_ev e2) = [] /\ fLine (fl d3) = true /\ toRead d3 = 0%Z /\ ip_is_connected d3 = true).
  { intros q (K1 & K2 & K3 & K4 & _) A B C1 C2. rewrite C1, C2, K4. splits; auto; [lia|apply K1]. }
  destruct Hst as [[[-> K]|[Hp K]] _].
  - destruct (Hend _ _ _ _ K Hs1 Hr1 Hh1) as (K1 & P1 & Q1). destruct (Hend _ _ _ _ K1 Hs2 Hr2 Hh2) as (K2 & P2 & Q2).
    apply (Hgoal r K2); auto; rewrite Q1, Q2; cbn [length app]; [rewrite !app_nil_r; exact Hc|lia].
  - destruct (sg_run_busy P N d m r d1 e1 d2 Hs1 Hr1 K Hv HN Hp Hok Hfr) as (P1 & [(Q1 & K1 & S1)|(r' & Q1 & O1 & C1 & Z1 & K1)] & _).
    + destruct (sg_run_busy P N d m r d2 e2 d3 Hs2 Hr2 K1 Hv HN Hp Hok Hfr) as (P2 & [(Q2 & K2 & S2)|(r' & Q2 & O2 & C2 & Z2 & K2)] & T).
      * exfalso. rewrite Q1 in Hav. cbn [length] in Hav. apply (T S1); [lia|exact Q2].
      * apply (Hgoal r' K2); auto; rewrite Q1; cbn [length app]; [rewrite C2, Hc, app_assoc; reflexivity|lia].
    + destruct (Hend _ _ _ _ K1 Hs2 Hr2 Hh2) as (K2 & P2 & Q2). apply (Hgoal r' K2); auto; rewrite Q2; cbn [length app]; [rewrite C1, Hc, !app_nil_r, app_assoc; reflexivity|lia].
Qed.

(** The bytes can be read. *)
Theorem C75_esp_datagrams_readable : forall P N ns d tr d' out m sch ev d2, sg_vacant P d -> feed P N d ns tr d' ->
  Forall (fun n => (0 < n < 2147483648)%Z) ns -> (fold_right Z.add 0%Z ns <= Z.of_nat (rsize (rbuf d)))%Z -> 20 <= N ->
  contents (rbuf d) = [] -> d_step (se_driver P) (OpRead m) sch d' = Ok (out, ev, d2) ->
  out = DData (firstn m (payloads tr)) (Nat.min m (length (payloads tr))).
Proof.
  intros P N ns d tr d' out m sch ev d2 Hr Hf Hns Hfit HN Hc E.
  assert (Ha : avail (rbuf d) = 0).
  { assert (K : ring_ok (rbuf d)) by apply Hr. pose proof (contents_length _ (proj1 K)) as L. rewrite Hc in L. cbn in L. lia. }
  destruct (C75_esp_datagrams P N ns d tr d') as (_ & A4 & _ & K & _); auto; try lia.
  destruct (C31_read _ _ _ _ _ _ _ _ _ _ _ K E) as (-> & _). rewrite Hc in A4. cbn [app] in A4.
  rewrite <- (contents_length _ (proj1 K)), A4. reflexivity.
Qed.

(** A session over UDP: "hello" arrives in two parts. *)
Definition sg_prepare : @script esop :=
  [call (OpX (SetSSID (PStr (bs "net")))); call (OpX (SetPassword (PStr (bs "pw")))); call (OpSetHostPort (PStr (bs "host")) 80%Z UDP)].
Definition sg_connects : @script esop := sg_prepare ++ call OpConnect :: se_answers ++ runs_ 1.
Definition sg_restb (d : dv) : bool :=
  se_easeb d && negb (typ d =? TCP)%Z && negb (fDisc (fl d)) && (toReceive d =? 0)%Z && (toRead d =? 0)%Z && fLine (fl d) && ring_okb (rbuf d) && (avail (wbuf d) =? 0).
Lemma sg_restb_ok : forall d, sg_restb d = true -> sg_vacant PU d.
Proof.
  intros d H. unfold sg_restb in H. rewrite !andb_true_iff, !negb_true_iff in H. destruct H as (((((((H1 & H9) & H2) & H4) & H5) & H6) & H7) & H8).
  apply se_easeb_ok in H1. apply Z.eqb_eq in H4, H5. apply Z.eqb_neq in H9. apply ring_okb_ok in H7. apply Nat.eqb_eq in H8. unfold sg_vacant. splits; auto.
Qed.
Lemma sg_reads_notice : forall P N d e d' v, se_step P d e d' -> roomy N d e -> sg_vacant P d -> 20 <= N -> fLine (fl d') = false ->
  pending d = [] -> se_solo P d (taken (e_ev e)) = true -> match noticed P v with Some q => q (taken (e_ev e)) | None => False end -> hears (noticed P v) e.
Proof.
  intros P N d e d' v Hs Hr Hv HN Hl Hp Hso Hq.
  destruct (existsb (fun a => match a with aLine _ _ => true | _ => false end) (e_acts e)) eqn:Ex.
  - apply existsb_exists in Ex as (a & Hin & Ha). destruct a as [| | |tk L| | | | |]; try discriminate Ha. destruct Hr as ((oo & Eo) & _). destruct Hv as (((_ & Hf & H3 & _) & _) & _).
    pose proof Hs as (_ & _ & _ & _ & _ & _ & Hio & _). unfold call_io in Hio. rewrite Eo in Hio. destruct Hio as [Hk _].
    assert (W : exists r, taken (e_ev e) = L ++ r /\ se_whole d L).
    { apply in_split in Hin as (l1 & l2 & El).
      destruct (se_parts P d e d' oo Hs Eo H3) as (d1 & Hd & [(Ea & _)|[(_ & Ef & _)|(_ & _ & a & d2 & rr & Hi & _ & Hrr)]]).
      1: exfalso; rewrite El in Ea; destruct l1; discriminate Ea.
      1: congruence.
      clear Ha. assert (Ha : a = aLine tk L /\ exists r, acts_taken (e_acts e) = tk ++ r).
      { destruct Hrr as [(Ea & _)|(b & _ & Ea & Hol & _)]; rewrite Ea in *.
        - destruct l1 as [|? [|? ?]]; try discriminate El. injection El as -> _. split; [reflexivity|]. exists []. reflexivity.
        - destruct l1 as [|? [|? l1]]; [| |exfalso; cbn [app] in El; injection El as _ _ El; destruct l1; discriminate El].
          + injection El as -> _. split; [reflexivity|]. exists (act_taken b). unfold acts_taken. cbn [map concat act_taken]. rewrite app_nil_r. reflexivity.
          + injection El as _ -> _. inversion Hol. }
      destruct Ha as (-> & r & Er2). inversion Hi; subst. exists r. rewrite Hk, Er2. change (pending (during (e_sch e) d)) with (pending d) in *. rewrite Hp in *. cbn [app] in *. split; [reflexivity|assumption]. }
    destruct W as (r & E & Hw). rewrite <- (se_solo_whole P d _ L r Hso E Hw) in Hq. exists tk, L. split; auto.
  - exfalso. assert (Hn : hears None e).
    { intros tk L Hin. assert (existsb (fun a => match a with aLine _ _ => true | _ => false end) (e_acts e) = true) by (apply existsb_exists; eauto). congruence. }
    destruct (sg_vacant_on P d Hv) as [[[_ K]|[Z _]] _]; [|lia]. assert (Ha : avail (wbuf d) = 0) by apply Hv.
    destruct (sg_run_idle P N d _ d e d' Hs Hr (or_introl Hn) K Ha HN) as ((_ & _ & K1 & _) & _). congruence.
Qed.

Example C75_esp_datagrams_case : exists d0 tr0 d tr d', se_built d0 /\ se_hist PU d0 tr0 d /\ sg_vacant PU d /\ feed PU 64 d [5%Z] tr d' /\
  (Z.of_nat (avail (rbuf d)) + 5 <= Z.of_nat (rsize (rbuf d)))%Z /\ contents (rbuf d') = bs "hello".
Proof.
  destruct se_ex_built as (d0 & E0 & Hb).
  set (h := sg_connects ++ modem (bs "+IPD,5:") :: call (OpRun true) :: modem (bs "he") :: call (OpRun true) :: modem (bs "llo") :: call (OpRun true) :: []).
  assert (Hrun : exists d outs, d_run (se_driver PU) d0 h = Ok (d, outs)).
  { assert (H : then_ (se_driver PU) se_ex h (fun _ => true) = true) by (vm_compute; reflexivity). unfold then_ in H. rewrite E0 in H.
    destruct (d_run (se_driver PU) d0 h) as [[d outs]|u]; [eauto|discriminate H]. }
  destruct Hrun as (d6 & outs & Hrun).
  assert (Hv : se_valid h). { apply (validb_ok _ (fun x => match x with SetSSID p | SetPassword p => strb p | _ => true end)); [intros [p|p| |] H; try exact I; apply strb_ok in H as [s ->]; first [exact I|exists s; reflexivity]|vm_compute; reflexivity]. }
  destruct (se_every_run PU d0 h d6 outs Hb Hv Hrun) as (tra & Ha & Em & _).
  assert (Cz : then_ (se_driver PU) se_ex h (fun x => if list_eq_dec ascii_dec (contents (rbuf x)) (bs "hello") then true else false) = true) by (vm_compute; reflexivity).
  apply (then_at _ _ _ _ _ _ _ _ _ _ _ E0 Hrun) in Cz. cbv beta in Cz. destruct (list_eq_dec ascii_dec _ _) as [Cq|]; [clear Cz|discriminate Cz]. unfold h in Em.
  destruct (hist_part _ _ _ _ _ _ _ _ _ Ha Em) as (tr0 & tr1 & d & o1 & _ & M0 & M1 & H0 & H1 & R1).
  destruct (hist_one _ _ _ _ _ _ _ _ _ H1 M1) as (e1 & tr2 & d1 & _ & Eo1 & Es1 & M2 & Hs1 & H2 & Ec1).
  destruct (hist_one _ _ _ _ _ _ _ _ _ H2 M2) as (e2 & tr3 & d2 & _ & Eo2 & Es2 & M3 & Hs2 & H3 & Ec2).
  destruct (hist_one _ _ _ _ _ _ _ _ _ H3 M3) as (e3 & tr4 & d3 & _ & Eo3 & Es3 & M4 & Hs3 & H4 & Ec3).
  destruct (hist_one _ _ _ _ _ _ _ _ _ H4 M4) as (e4 & tr5 & d4 & _ & Eo4 & Es4 & M5 & Hs4 & H5 & Ec4).
  destruct (hist_one _ _ _ _ _ _ _ _ _ H5 M5) as (e5 & tr6 & d5 & _ & Eo5 & Es5 & M6 & Hs5 & H6 & Ec5).
  destruct (hist_one _ _ _ _ _ _ _ _ _ H6 M6) as (e6 & tr7 & d6' & _ & Eo6 & Es6 & M7 & Hs6 & H7 & Ec6).
  destruct tr7; [|discriminate M7]. assert (d6' = d6) as -> by (inversion H7; reflexivity).
  cbn [fst snd call modem] in Eo1, Es1, Ec1, Eo2, Es2, Ec2, Eo3, Es3, Ec3, Eo4, Es4, Ec4, Eo5, Es5, Ec5, Eo6, Es6, Ec6.
  assert (C1 : then_ (se_driver PU) se_ex sg_connects (fun x => sg_restb x && (Z.of_nat (avail (rbuf x)) + 5 <=? Z.of_nat (rsize (rbuf x)))%Z &&
    match d_step (se_driver PU) OpIdle (snd (@modem esop (bs "+IPD,5:"))) x with Ok (_, _, x1) =>
    match d_step (se_driver PU) (OpRun true) [] x1 with Ok (_, ev, x2) =>
    match d_step (se_driver PU) OpIdle (snd (@modem esop (bs "he"))) x2 with Ok (_, _, x3) =>
    match d_step (se_driver PU) (OpRun true) [] x3 with Ok (_, _, x4) =>
    match d_step (se_driver PU) OpIdle (snd (@modem esop (bs "llo"))) x4 with Ok (_, _, x5) =>
      sg_restb x1 && negb (fLine (fl x2)) && (length (pending x1) =? 0) && (if list_eq_dec ascii_dec (taken ev) (bs "+IPD,5:") then true else false) && se_solo PU x1 (bs "+IPD,5:") &&
      (txav (io x1) + 64 <=? txsz (io x1)) && (txav (io x3) + 64 <=? txsz (io x3)) && (txav (io x5) + 64 <=? txsz (io x5)) &&
      negb (fLock (fl x3)) && negb (fLine (fl x3)) && negb (fLock (fl x5)) && negb (fLine (fl x5))
    | _ => false end | _ => false end | _ => false end | _ => false end | _ => false end) = true) by (vm_compute; reflexivity).
  cbn [snd modem] in C1.
  apply (then_at _ _ _ _ _ _ _ _ _ _ _ E0 R1) in C1. cbv beta in C1. rewrite Ec1, Ec2, Ec3, Ec4, Ec5, !andb_true_iff, !negb_true_iff in C1.
  destruct C1 as ((C1 & C2) & ((((((((((D1 & D2) & D3) & D4) & D5) & D6) & D7) & D8) & D9) & D10) & D11) & D12).
  apply sg_restb_ok in C1, D1. apply Z.leb_le in C2. apply Nat.leb_le in D6, D7, D8. apply Nat.eqb_eq, length_zero_iff_nil in D3. destruct (list_eq_dec ascii_dec _ _) as [Ct|]; [clear D4|discriminate D4].
  exists d0, tr0, d, [e1; e2; e3; e4; e5; e6], d6. splits; auto.
  apply (fd_look PU 64 d e1 d1); [exact Hs1|rewrite Eo1; reflexivity|].
  assert (Rm : forall (x : dv) (e : ent), e_op e = OpRun true -> txav (io x) + 64 <= txsz (io x) -> roomy 64 x e) by (intros x e Z1 Z2; split; [eauto|exact Z2]).
  apply (fd_gram PU 64 d1 e2 d2 5 []); [exact Hs2|auto| |].
  { refine (sg_reads_notice PU 64 d1 e2 d2 5 Hs2 (Rm _ _ Eo2 D6) D1 ltac:(lia) D2 D3 _ _); rewrite Ct; [exact D5|]. unfold noticed. split; vm_compute; reflexivity. }
  apply (fd_look PU 64 d2 e3 d3); [exact Hs3|rewrite Eo3; reflexivity|].
  apply (fd_idle PU 64 d3 e4 d4); [exact Hs4|auto|left; exact (se_deaf PU d3 e4 d4 _ Hs4 Eo4 D9 D10)|].
  apply (fd_look PU 64 d4 e5 d5); [exact Hs5|rewrite Eo5; reflexivity|].
  apply (fd_idle PU 64 d5 e6 d6); [exact Hs6|auto|left; exact (se_deaf PU d5 e6 d6 _ Hs6 Eo6 D11 D12)|].
  constructor.
Qed.

(** ** Assumptions *)
Print Assumptions C75_esp_datagrams.
Print Assumptions C75_esp_datagram_taken.
Print Assumptions C75_esp_datagrams_readable.
