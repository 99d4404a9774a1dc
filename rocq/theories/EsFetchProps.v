(** The Espressif driver: data the modem reports on a TCP connection is fetched and becomes readable, if
    the modem answers (C75). *)
From Coq Require Import String Ascii ZArith List Bool Arith Lia ZifyBool ZifyNat.
From Verif Require Import Base QueueSpec LineSpec SerialSpec Ring RingProofs LineRing LineRingProofs Serial SerialProofs
  SerStep TaskMacros CStr CStrProofs Dev DevProofs SimDev SimProofs SimSpec SimParse SimLog Sym DrvStep DrvCommon DrvRun DrvHist DrvHand DrvSend DrvFetch DrvTalk Session HandCheck DevProps
  Espressif EsSpec EsFill EsMore EsHist EsThms EsHand EsSend EsFetch EsProps EsHandProps EsSendProps.
Import ListNotations.
Local Open Scope nat_scope.
Local Notation dv := (dev essend esreply espx).
Local Notation ent := (@entry esop).

(** Connected, with nothing to do. *)
Definition se_vacant (P : plat) (d : dv) : Prop :=
  se_at_ease P d /\ typ d = TCP /\ fDisc (fl d) = false /\ fData (fl d) = false /\ toReceive d = 0%Z /\ toRead d = 0%Z /\ fLine (fl d) = true /\
  ring_ok (rbuf d) /\ avail (wbuf d) = 0.

(** The modem reports [n] bytes and sends them in pieces of the sizes [ms]: they are
    asked for, and come into the read buffer in order. *)
Theorem C75_esp_fetches : forall P N n ms d tr1 d1 tr2 d2, se_vacant P d ->
  dialogue (se_step P) se_hum N [noticed P n] d tr1 d1 -> chunks (se_step P) se_hum N (headed P) d1 ms tr2 d2 ->
  (0 < n < 2147483648)%Z -> Forall (fun m => (0 < m)%Z) ms -> fold_right Z.add 0%Z ms = n -> (Z.of_nat (avail (rbuf d)) + n <= Z.of_nat (rsize (rbuf d)))%Z -> 30 < rxsz (io d) -> 40 <= N ->
  exists ks, sent (tr1 ++ tr2) = commands (map (fun k => bs "AT+CIPRECVDATA=" ++ dec k) ks) /\
    length ks = length ms /\ Forall (fun k => (0 < k <= n)%Z /\ (k <= 2048)%Z /\ (k + 30 <= Z.of_nat (rxsz (io d)))%Z) ks /\
    contents (rbuf d2) = contents (rbuf d) ++ payloads (tr1 ++ tr2) /\ Z.of_nat (length (payloads (tr1 ++ tr2))) = n /\
    se_vacant P d2 /\ (ext d2, wbuf d2, typ d2, host d2, port d2, rsize (rbuf d2)) = (ext d, wbuf d, typ d, host d, port d, rsize (rbuf d)).
Proof.
  intros P N n ms d tr1 d1 tr2 d2 (((G1 & G2 & G3 & G4 & G5 & G6) & R2 & R3 & R4 & R5) & Ft & F1 & F2 & F3 & F4 & F5 & F6 & Hv) H1 H2 Hn Hms Hsum Hfit Hrx HN.
  assert (H0 : se_on P d se_c0 (rbuf d) d).
  { unfold se_on, se_kept, se_ctl, se_c0, se_tuned. rewrite F1, F2, F3, F4, F5, G4, R2, R3, R4, R5. rewrite Ft. splits; auto. }
  destruct (se_fetches_all P N n ms d tr1 d1 tr2 d2) as (ks & A1 & A2 & A3 & A4 & A5 & A6 & A7 & ((T1 & T2 & T3 & T4 & T5 & T6) & K2 & K3 & K4) & K5 & K6); auto; try (unfold modest; lia); try lia.
  exists ks. unfold se_ctl, se_c0 in K5. apply pair_eq in K5 as [K5 C6]. apply pair_eq in K5 as [K5 C5]. apply pair_eq in K5 as [K5 C4]. apply pair_eq in K5 as [K5 C3]. apply pair_eq in K5 as [C1 C2].
  apply pair_eq in K2 as [K2 D3]. apply pair_eq in K2 as [D1 D2].
  assert (W : wbuf d2 = wbuf d) by congruence.
  splits; auto; [|congruence]. unfold se_vacant, se_at_ease, se_going. rewrite W. splits; auto.
Qed.

(** The bytes can be read: read() gives the first of them, if none were waiting. *)
Theorem C75_esp_readable : forall P N n ms d tr1 d1 tr2 d2 out m sch ev d', se_vacant P d ->
  dialogue (se_step P) se_hum N [noticed P n] d tr1 d1 -> chunks (se_step P) se_hum N (headed P) d1 ms tr2 d2 ->
  (0 < n < 2147483648)%Z -> Forall (fun m => (0 < m)%Z) ms -> fold_right Z.add 0%Z ms = n -> (n <= Z.of_nat (rsize (rbuf d)))%Z -> 30 < rxsz (io d) -> 40 <= N ->
  contents (rbuf d) = [] -> d_step (se_driver P) (OpRead m) sch d2 = Ok (out, ev, d') ->
  out = DData (firstn m (payloads (tr1 ++ tr2))) (Nat.min m (Z.to_nat n)).
Proof.
  intros P N n ms d tr1 d1 tr2 d2 out m sch ev d' Hr H1 H2 Hn Hms Hsum Hfit Hrx HN Hc E.
  assert (Ha : avail (rbuf d) = 0).
  { assert (K : ring_ok (rbuf d)) by apply Hr. pose proof (contents_length _ (proj1 K)) as L. rewrite Hc in L. cbn in L. lia. }
  destruct (C75_esp_fetches P N n ms d tr1 d1 tr2 d2) as (ks & _ & _ & _ & A4 & A5 & A6 & _); auto; try lia.
  assert (K : ring_ok (rbuf d2)) by apply A6.
  destruct (C31_read _ _ _ _ _ _ _ _ _ _ _ K E) as (-> & _). rewrite Hc in A4. cbn [app] in A4.
  rewrite <- (contents_length _ (proj1 K)), A4. f_equal. f_equal. lia.
Qed.

(** A header: it is read up to the ':' behind the number, the payload follows at once. *)
Definition se_solo (P : plat) (d : dv) (L : bytes) : bool :=
  forallb (fun k => negb (se_ends (typ d) (rst d) (firstn k L))) (seq 0 (length L)).
Lemma se_solo_whole : forall P (d : dv) L M r, se_solo P d L = true -> L = M ++ r -> se_whole d M -> M = L.
Proof.
  intros P d L M r H E (b & c & Eb & _ & _ & _ & K). destruct r as [|z r]; [rewrite app_nil_r in E; auto|]. exfalso.
  unfold se_solo in H. rewrite forallb_forall in H. specialize (H (length M)). rewrite in_seq, E, app_length in H. cbn [length] in H.
  rewrite firstn_app, Nat.sub_diag, firstn_O, app_nil_r, firstn_all2, K in H by lia. specialize (H ltac:(lia)). discriminate H.
Qed.
Lemma se_reads_header : forall P N d e d' v, se_step P d e d' -> roomy N d e -> se_tuned P d -> fDisc (fl d) = false -> rst d = REWaitCiprecvdata -> rst d' <> REWaitCiprecvdata ->
  pending d = [] -> se_solo P d (taken (e_ev e)) = true -> match headed P v with Some q => q (taken (e_ev e)) | None => False end -> hears (headed P v) e.
Proof.
  intros P N d e d' v Hs Hr Ht Hdi Er Er' Hp Hso Hq.
  destruct (existsb (fun a => match a with aLine _ _ => true | _ => false end) (e_acts e)) eqn:Ex.
  - apply existsb_exists in Ex as (a & Hin & Ha). destruct a as [| | |tk L| | | | |]; try discriminate Ha. destruct Hr as ((oo & Eo) & _). destruct Ht as (_ & Hf & H3 & _).
    pose proof Hs as (_ & _ & _ & _ & _ & _ & Hio & _). unfold call_io in Hio. rewrite Eo in Hio. destruct Hio as [Hk _].
    assert (W : exists r, taken (e_ev e) = L ++ r /\ se_whole d L).
    { apply in_split in Hin as (l1 & l2 & El).
      destruct (se_parts P d e d' oo Hs Eo H3) as (d1 & Hd & [(Ea & _)|[(_ & Ef & _)|(_ & _ & a & d2 & rr & Hi & _ & Hrr)]]).
      1: exfalso; rewrite El in Ea; destruct l1; discriminate Ea.
      1: congruence.
      clear Ha. assert (Ha : a = aLine tk L /\ exists r, acts_taken (e_acts e) = tk ++ r).
      { destruct Hrr as [(Ea & _)|(b & _ & Ea & Hol & _)]; rewrite Ea in *.
        - destruct l1 as [|? [|? ?]]; try discriminate El. injection El as -> _. split; [reflexivity|]. exists []. reflexivity.
        - destruct l1 as [|? [|? l1]]; [| |exfalso; cbn [app] in El; injection El as _ _ El; destruct l1; discriminate El].
          + injection El as -> _. split; [reflexivity|]. exists (act_taken b). unfold acts_taken. cbn [map concat act_taken]. rewrite app_nil_r. reflexivity.
          + injection El as _ -> _. inversion Hol. }
      destruct Ha as (-> & r & Er2). inversion Hi; subst. exists r. rewrite Hk, Er2. change (pending (during (e_sch e) d)) with (pending d) in *. rewrite Hp in *. cbn [app] in *. split; [reflexivity|assumption]. }
    destruct W as (r & E & Hw). rewrite <- (se_solo_whole P d _ L r Hso E Hw) in Hq. exists tk, L. split; auto.
  - exfalso. assert (Hn : hears None e).
    { intros tk L Hin. assert (existsb (fun a => match a with aLine _ _ => true | _ => false end) (e_acts e) = true) by (apply existsb_exists; eauto). congruence. }
    destruct (se_turn_none P N d e d' Hs Hr Hn Ht Hdi) as (x & d1 & _ & Hsh & _ & _ & _ & _ & Eo & Ed & _).
    assert (Ex2 : rst x = rst d) by (unfold shell in Hsh; rewrite Hsh; reflexivity).
    assert (d1 = x) as -> by (apply (se_pending_output P x d1 Eo); right; rewrite Ex2, Er; discriminate).
    apply Er'. rewrite Ed. cbn [rst set_io]. congruence.
Qed.

(** A session: "hello" arrives, with an empty line and an echo in between. *)
Definition se_hum_words : list string := ["OK"; "ERROR"; "FAIL"; "SEND FAIL"; "+IPD"; "+CIPRECVDATA"; "CLOSED"; "WIFI DISCONNECT"]%string.
Definition se_reports : @script esop := dialog [crlf (bs ""); crlf (bs "+IPD,5")].
Definition se_heading : @script esop := [modem (bs "+CIPRECVDATA,5:")].
Definition se_gives : @script esop := dialog [bs "he"] ++ [call OpBytesAvailable] ++ dialog [bs "llo"; crlf (bs ""); crlf (bs "OK")].
Definition se_talk := talks (se_driver PU) (silentb se_hum_words) se_plainb 64.
Definition se_restb (d : dv) : bool :=
  se_easeb d && (typ d =? TCP)%Z && negb (fDisc (fl d)) && negb (fData (fl d)) && (toReceive d =? 0)%Z && (toRead d =? 0)%Z && fLine (fl d) && ring_okb (rbuf d) && (avail (wbuf d) =? 0).
Lemma se_restb_ok : forall d, se_restb d = true -> se_vacant PU d.
Proof.
  intros d H. unfold se_restb in H. rewrite !andb_true_iff, !negb_true_iff in H. destruct H as ((((((((H1 & H9) & H2) & H3) & H4) & H5) & H6) & H7) & H8).
  apply se_easeb_ok in H1. apply Z.eqb_eq in H4, H5, H9. apply ring_okb_ok in H7. apply Nat.eqb_eq in H8. unfold se_vacant. splits; auto.
Qed.
Definition noticedb (P : plat) (v : Z) : option (bytes -> bool) := Some (fun L => prefixb (bs "+IPD") L && (number P (skipn 5 L) =? v)%Z).
Lemma noticedb_ok : forall P v L, prefixb (bs "+IPD") L && (number P (skipn 5 L) =? v)%Z = true <-> prefixb (bs "+IPD") L = true /\ number P (skipn 5 L) = v.
Proof. intros. rewrite andb_true_iff, Z.eqb_eq. tauto. Qed.
Local Ltac notice_replies := repeat (apply Forall2_cons; [first [exact I|intro; apply noticedb_ok|intro; apply iff_refl]|]); apply Forall2_nil.
Definition se_tunedb (d : dv) : bool :=
  isopen d && negb (fReset (fl d)) && negb (fLock (fl d)) && negb (rssi d =? INT16_MAX)%Z && negb (se_mac_request PU (emac (ext d))) && (typ d =? TCP)%Z && negb (fDisc (fl d)).
Lemma se_tunedb_ok : forall d, se_tunedb d = true -> se_tuned PU d /\ fDisc (fl d) = false.
Proof.
  intros d H. unfold se_tunedb in H. rewrite !andb_true_iff, !negb_true_iff in H. destruct H as ((((((H1 & H2) & H3) & H4) & H5) & H6) & H7).
  apply Z.eqb_eq in H6. apply Z.eqb_neq in H4. split; [unfold se_tuned; splits; auto|exact H7].
Qed.

Example C75_esp_case : exists d0 tr0 d tr1 d1 tr2 d2, se_built d0 /\ se_hist PU d0 tr0 d /\ se_vacant PU d /\
  dialogue (se_step PU) se_hum 64 [noticed PU 5] d tr1 d1 /\ chunks (se_step PU) se_hum 64 (headed PU) d1 [5%Z] tr2 d2 /\
  (Z.of_nat (avail (rbuf d)) + 5 <= Z.of_nat (rsize (rbuf d)))%Z /\ 30 < rxsz (io d) /\ contents (rbuf d2) = bs "hello".
Proof.
  destruct se_ex_built as (d0 & E0 & Hb).
  set (h := se_connects ++ se_reports ++ call (OpRun true) :: modem (bs "+CIPRECVDATA,5:") :: call (OpRun true) :: se_gives).
  assert (Hrun : exists d outs, d_run (se_driver PU) d0 h = Ok (d, outs)).
  { assert (H : then_ (se_driver PU) se_ex h (fun _ => true) = true) by (vm_compute; reflexivity). unfold then_ in H. rewrite E0 in H.
    destruct (d_run (se_driver PU) d0 h) as [[d outs]|u]; [eauto|discriminate H]. }
  destruct Hrun as (d2 & outs & Hrun).
  assert (Hv : se_valid h). { apply (validb_ok _ (fun x => match x with SetSSID p | SetPassword p => strb p | _ => true end)); [intros [p|p| |] H; try exact I; apply strb_ok in H as [s ->]; first [exact I|exists s; reflexivity]|vm_compute; reflexivity]. }
  destruct (se_every_run PU d0 h d2 outs Hb Hv Hrun) as (tra & Ha & Em & _).
  assert (Cz : then_ (se_driver PU) se_ex h (fun x => if list_eq_dec ascii_dec (contents (rbuf x)) (bs "hello") then true else false) = true) by (vm_compute; reflexivity).
  apply (then_at _ _ _ _ _ _ _ _ _ _ _ E0 Hrun) in Cz. cbv beta in Cz. destruct (list_eq_dec ascii_dec _ _) as [Cq|]; [clear Cz|discriminate Cz]. unfold h in Em.
  destruct (hist_part _ _ _ _ _ _ _ _ _ Ha Em) as (tr0 & trb & d & o1 & _ & M0 & Mb & H0 & Hb1 & R1).
  destruct (hist_part _ _ _ _ _ _ _ _ _ Hb1 Mb) as (tr1 & trc & d1 & o2 & _ & M1 & Mc & H1 & Hc1 & R2).
  destruct (hist_one _ _ _ _ _ _ _ _ _ Hc1 Mc) as (e & trd & da & _ & Eo & Es & Md & Hs & Hd1 & Ec).
  destruct (hist_one _ _ _ _ _ _ _ _ _ Hd1 Md) as (em & tre & db & _ & Eom & Esm & Me & Hsm & He1 & Ecm).
  destruct (hist_one _ _ _ _ _ _ _ _ _ He1 Me) as (eh & trf & dc & _ & Eoh & Esh & Mf & Hsh & Hf1 & Ech).
  cbn [fst snd call modem] in Eo, Es, Ec, Eom, Esm, Ecm, Eoh, Esh, Ech.
  assert (C1 : then_ (se_driver PU) se_ex se_connects (fun x => se_restb x && (Z.of_nat (avail (rbuf x)) + 5 <=? Z.of_nat (rsize (rbuf x)))%Z && (30 <? rxsz (io x)) &&
    se_talk [noticedb PU 5] se_reports x &&
    match d_run (se_driver PU) x se_reports with Ok (y, _) => se_talk [None] (runs_ 1) y &&
      match d_step (se_driver PU) (OpRun true) [] y with Ok (_, _, z) =>
      match d_step (se_driver PU) OpIdle (snd (@modem esop (bs "+CIPRECVDATA,5:"))) z with Ok (_, _, u) =>
      match d_step (se_driver PU) (OpRun true) [] u with Ok (_, ev, v) =>
        se_tunedb u && (match rst u with REWaitCiprecvdata => true | _ => false end) && (match rst v with REWaitCiprecvdata => false | _ => true end) &&
        (txav (io u) + 64 <=? txsz (io u)) && (length (pending u) =? 0) && (if list_eq_dec ascii_dec (taken ev) (bs "+CIPRECVDATA,5:") then true else false) &&
        se_talk [Some (prefixb (bs "OK"))] se_gives v
      | _ => false end | _ => false end | _ => false end | _ => false end) = true) by (vm_compute; reflexivity).
  cbn [snd modem] in C1.
  apply (then_at _ _ _ _ _ _ _ _ _ _ _ E0 R1) in C1. cbv beta in C1. rewrite R2, Ec, Ecm, Ech, !andb_true_iff in C1.
  destruct C1 as ((((C1 & C2) & C3) & C4) & C5 & ((((((C6 & C7) & C8) & C9) & C10) & C11) & C12)). apply se_restb_ok in C1. apply Z.leb_le in C2. apply Nat.ltb_lt in C3.
  destruct (list_eq_dec ascii_dec _ _) as [Ct|]; [clear C11|discriminate C11]. apply se_tunedb_ok in C6 as [C6 Cd]. apply Nat.leb_le in C9. apply Nat.eqb_eq, length_zero_iff_nil in C10.
  assert (Er : rst db = REWaitCiprecvdata) by (destruct (rst db); first [reflexivity|discriminate C7]).
  assert (Er2 : rst dc <> REWaitCiprecvdata) by (destruct (rst dc); first [discriminate C8|discriminate]).
  pose proof (fun tr d d' Hc ps H => talks_dialogue (se_driver PU) (se_shape PU) (se_all False) se_goodx se_hum (silentb se_hum_words) (fun L => proj1 (silentb_ok _ L)) se_plainb (se_plainb_ok PU) 64 tr d d' Hc ps H) as T.
  exists d0, tr0, d, tr1, d1, (e :: (em :: eh :: trf) ++ []), d2. splits; auto.
  - rewrite <- M1 in C4. refine (dialogue_same _ _ _ _ _ _ _ _ _ _ _ (T tr1 d d1 H1 _ C4) _ _). notice_replies.
  - assert (Hh : hears None e /\ roomy 64 d1 e).
    { assert (Mx : runs_ 1 = map (fun e => (e_op e, e_sch e)) [e]) by (cbn [map]; rewrite Eo, Es; reflexivity). rewrite Mx in C5.
      pose proof (T [e] d1 da (hist_cons _ _ _ _ _ _ _ _ _ Hs (hist_nil _ _ _ _ _)) _ C5) as Q. inversion Q; subst; auto. exfalso. rewrite Eo in *. discriminate. }
    destruct Hh as [Hh Hr]. apply (ch_cons _ _ _ _ _ e da _ _ _ d2); auto; [|constructor].
    apply (dl_look _ _ _ _ _ em db _ _ Hsm); [rewrite Eom; reflexivity|].
    assert (Hro : roomy 64 db eh) by (split; [eauto|exact C9]).
    apply (dl_hear _ _ _ _ _ _ eh dc _ _ Hsh Hro).
    + refine (se_reads_header PU 64 db eh dc 5 Hsh Hro C6 Cd Er Er2 C10 _ _); rewrite Ct; [|unfold headed; split; [left; split; reflexivity|split; [vm_compute; split; repeat constructor|vm_compute; reflexivity]]].
      unfold se_solo. rewrite Er. assert (Ety : typ db = TCP) by apply C6. rewrite Ety. vm_compute. reflexivity.
    + rewrite <- Mf in C12. refine (dialogue_same _ _ _ _ _ _ _ _ _ _ _ (T trf dc d2 Hf1 _ C12) _ _). notice_replies.
Qed.

(** ** Assumptions *)
Print Assumptions C75_esp_fetches.
Print Assumptions C75_esp_readable.
