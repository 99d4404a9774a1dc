(** The CC1352P7 driver: data the module reports is fetched and becomes readable, if
    the module answers (C75). *)
From Coq Require Import String Ascii ZArith List Bool Arith Lia ZifyBool ZifyNat.
From Verif Require Import Base QueueSpec LineSpec SerialSpec Ring RingProofs LineRing LineRingProofs Serial SerialProofs
  SerStep TaskMacros CStr CStrProofs Dev DevProofs SimDev SimProofs SimSpec SimParse SimLog Sym DrvStep DrvCommon DrvRun DrvHist DrvHand DrvSend DrvFetch DrvTalk Session HandCheck DevProps
  Cc1352 CcSpec CcHist CcThms CcHand CcSend CcFetch CcProps CcHandProps CcSendProps.
Import ListNotations.
Local Open Scope nat_scope.
Local Notation dv := (dev ccsend ccreply ccx).
Local Notation ent := (@entry ccop).

(** Connected, with nothing to do. *)
Definition sc_vacant (P : plat) (d : dv) : Prop :=
  sc_at_ease P d /\ fDisc (fl d) = false /\ fData (fl d) = false /\ toReceive d = 0%Z /\ toRead d = 0%Z /\ fLine (fl d) = true /\
  ring_ok (rbuf d) /\ avail (wbuf d) = 0.

(** The module reports [n] bytes and sends them in pieces of the sizes [ms]: they are
    asked for, and come into the read buffer in order. *)
Theorem C75_cc_fetches : forall P N n ms d tr1 d1 tr2 d2, sc_vacant P d ->
  dialogue (sc_step P) sc_hum N [numbered P (bs "+IPD") 5 n] d tr1 d1 -> chunks (sc_step P) sc_hum N (numbered P (bs "+CIPRECVDATA") 13) d1 ms tr2 d2 ->
  (0 < n < 2147483648)%Z -> Forall (fun m => (0 < m)%Z) ms -> fold_right Z.add 0%Z ms = n -> (Z.of_nat (avail (rbuf d)) + n <= Z.of_nat (rsize (rbuf d)))%Z -> 30 < rxsz (io d) -> 40 <= N ->
  exists ks, sent (tr1 ++ tr2) = commands (map (fun k => bs "AT+CIPRECVDATA=" ++ dec k) ks) /\
    length ks = length ms /\ Forall (fun k => (0 < k <= n)%Z /\ (k <= 1220)%Z /\ (k + 30 <= Z.of_nat (rxsz (io d)))%Z) ks /\
    contents (rbuf d2) = contents (rbuf d) ++ payloads (tr1 ++ tr2) /\ Z.of_nat (length (payloads (tr1 ++ tr2))) = n /\
    sc_vacant P d2 /\ (ext d2, wbuf d2, typ d2, host d2, port d2, rsize (rbuf d2)) = (ext d, wbuf d, typ d, host d, port d, rsize (rbuf d)).
Proof.
  intros P N n ms d tr1 d1 tr2 d2 (((G1 & G2 & G3 & G4 & G5 & G6) & R2 & R3 & R4 & R5) & F1 & F2 & F3 & F4 & F5 & F6 & Hv) H1 H2 Hn Hms Hsum Hfit Hrx HN.
  assert (H0 : sc_on P d sc_c0 (rbuf d) d).
  { unfold sc_on, sc_kept, sc_ctl, sc_c0, sc_tuned. rewrite F1, F2, F3, F4, F5, G4, R2, R3, R4, R5. splits; auto. }
  destruct (sc_fetches_all P N n ms d tr1 d1 tr2 d2) as (ks & A1 & A2 & A3 & A4 & A5 & A6 & A7 & ((T1 & T2 & T3 & T4 & T5) & K2 & K3 & K4) & K5 & K6); auto; try (unfold modest; lia); try lia.
  exists ks. unfold sc_ctl, sc_c0 in K5. apply pair_eq in K5 as [K5 C6]. apply pair_eq in K5 as [K5 C5]. apply pair_eq in K5 as [K5 C4]. apply pair_eq in K5 as [K5 C3]. apply pair_eq in K5 as [C1 C2].
  apply pair_eq in K2 as [K2 D3]. apply pair_eq in K2 as [D1 D2].
  assert (W : wbuf d2 = wbuf d) by congruence.
  splits; auto; [|congruence]. unfold sc_vacant, sc_at_ease, sc_going. rewrite W. splits; auto.
Qed.

(** The bytes can be read: read() gives the first of them, if none were waiting. *)
Theorem C75_cc_readable : forall P N n ms d tr1 d1 tr2 d2 out m sch ev d', sc_vacant P d ->
  dialogue (sc_step P) sc_hum N [numbered P (bs "+IPD") 5 n] d tr1 d1 -> chunks (sc_step P) sc_hum N (numbered P (bs "+CIPRECVDATA") 13) d1 ms tr2 d2 ->
  (0 < n < 2147483648)%Z -> Forall (fun m => (0 < m)%Z) ms -> fold_right Z.add 0%Z ms = n -> (n <= Z.of_nat (rsize (rbuf d)))%Z -> 30 < rxsz (io d) -> 40 <= N ->
  contents (rbuf d) = [] -> d_step (sc_driver P) (OpRead m) sch d2 = Ok (out, ev, d') ->
  out = DData (firstn m (payloads (tr1 ++ tr2))) (Nat.min m (Z.to_nat n)).
Proof.
  intros P N n ms d tr1 d1 tr2 d2 out m sch ev d' Hr H1 H2 Hn Hms Hsum Hfit Hrx HN Hc E.
  assert (Ha : avail (rbuf d) = 0).
  { assert (K : ring_ok (rbuf d)) by apply Hr. pose proof (contents_length _ (proj1 K)) as L. rewrite Hc in L. cbn in L. lia. }
  destruct (C75_cc_fetches P N n ms d tr1 d1 tr2 d2) as (ks & _ & _ & _ & A4 & A5 & A6 & _); auto; try lia.
  assert (K : ring_ok (rbuf d2)) by apply A6.
  destruct (C31_read _ _ _ _ _ _ _ _ _ _ _ K E) as (-> & _). rewrite Hc in A4. cbn [app] in A4.
  rewrite <- (contents_length _ (proj1 K)), A4. f_equal. f_equal. lia.
Qed.

(** A session: "hello" arrives, with echoes and empty lines in between. *)
Definition sc_hum_words : list string := ["OK"; "ERROR"; "SEND FAIL"; "+IPD"; "+CIPRECVDATA"; "CLOSED"]%string.
Definition sc_reports : @script ccop := dialog [crlf (bs ""); crlf (bs "+IPD,5")].
Definition sc_gives : @script ccop := dialog [crlf (bs "AT+CIPRECVDATA=5"); crlf (bs "+CIPRECVDATA:5"); bs "he"] ++ [call OpBytesAvailable] ++ dialog [bs "llo"; crlf (bs ""); crlf (bs "OK")].
Definition sc_talk := talks (sc_driver PU) (silentb sc_hum_words) (fun _ => true) 64.
Definition sc_restb (d : dv) : bool :=
  sc_easeb d && negb (fDisc (fl d)) && negb (fData (fl d)) && (toReceive d =? 0)%Z && (toRead d =? 0)%Z && fLine (fl d) && ring_okb (rbuf d) && (avail (wbuf d) =? 0).
Lemma sc_restb_ok : forall d, sc_restb d = true -> sc_vacant PU d.
Proof.
  intros d H. unfold sc_restb in H. rewrite !andb_true_iff, !negb_true_iff in H. destruct H as (((((((H1 & H2) & H3) & H4) & H5) & H6) & H7) & H8).
  apply sc_easeb_ok in H1. apply Z.eqb_eq in H4, H5. apply ring_okb_ok in H7. apply Nat.eqb_eq in H8. unfold sc_vacant. splits; auto.
Qed.
Definition numberedb (P : plat) (w : bytes) (k : nat) (v : Z) : option (bytes -> bool) := Some (fun L => prefixb w L && (number P (skipn k L) =? v)%Z).
Lemma numberedb_ok : forall P w k v L, prefixb w L && (number P (skipn k L) =? v)%Z = true <-> prefixb w L = true /\ number P (skipn k L) = v.
Proof. intros. rewrite andb_true_iff, Z.eqb_eq. tauto. Qed.
Local Ltac number_replies := repeat (apply Forall2_cons; [first [exact I|intro; apply numberedb_ok|intro; apply iff_refl]|]); apply Forall2_nil.

Example C75_cc_case : exists d0 tr0 d tr1 d1 tr2 d2, sc_built d0 /\ sc_hist PU d0 tr0 d /\ sc_vacant PU d /\
  dialogue (sc_step PU) sc_hum 64 [numbered PU (bs "+IPD") 5 5] d tr1 d1 /\ chunks (sc_step PU) sc_hum 64 (numbered PU (bs "+CIPRECVDATA") 13) d1 [5%Z] tr2 d2 /\
  (Z.of_nat (avail (rbuf d)) + 5 <= Z.of_nat (rsize (rbuf d)))%Z /\ 30 < rxsz (io d) /\ contents (rbuf d2) = bs "hello".
Proof.
  destruct sc_ex_built as (d0 & E0 & Hb).
  set (h := sc_connects ++ sc_reports ++ call (OpRun true) :: sc_gives).
  assert (Hrun : exists d outs, d_run (sc_driver PU) d0 h = Ok (d, outs)).
  { assert (H : then_ (sc_driver PU) sc_ex h (fun _ => true) = true) by (vm_compute; reflexivity). unfold then_ in H. rewrite E0 in H.
    destruct (d_run (sc_driver PU) d0 h) as [[d outs]|u]; [eauto|discriminate H]. }
  destruct Hrun as (d2 & outs & Hrun).
  assert (Hv : sc_valid h) by (apply (validb_ok _ (fun _ => true)); [intros; exact I|vm_compute; reflexivity]).
  destruct (sc_every_run PU d0 h d2 outs Hb Hv Hrun) as (tra & Ha & Em & _).
  assert (Cz : then_ (sc_driver PU) sc_ex h (fun x => if list_eq_dec ascii_dec (contents (rbuf x)) (bs "hello") then true else false) = true) by (vm_compute; reflexivity).
  apply (then_at _ _ _ _ _ _ _ _ _ _ _ E0 Hrun) in Cz. cbv beta in Cz. destruct (list_eq_dec ascii_dec _ _) as [Cq|]; [clear Cz|discriminate Cz]. unfold h in Em.
  destruct (hist_part _ _ _ _ _ _ _ _ _ Ha Em) as (tr0 & trb & d & o1 & _ & M0 & Mb & H0 & Hb1 & R1).
  destruct (hist_part _ _ _ _ _ _ _ _ _ Hb1 Mb) as (tr1 & trc & d1 & o2 & _ & M1 & Mc & H1 & Hc1 & R2).
  destruct (hist_one _ _ _ _ _ _ _ _ _ Hc1 Mc) as (e & tr2 & d1' & _ & Eo & Es & Md & Hs & H2 & Ec). cbn [fst snd call] in Eo, Es, Ec.
  assert (C1 : then_ (sc_driver PU) sc_ex sc_connects (fun x => sc_restb x && (Z.of_nat (avail (rbuf x)) + 5 <=? Z.of_nat (rsize (rbuf x)))%Z && (30 <? rxsz (io x)) &&
    sc_talk [numberedb PU (bs "+IPD") 5 5] sc_reports x &&
    match d_run (sc_driver PU) x sc_reports with Ok (y, _) => sc_talk [None] (runs_ 1) y &&
      match d_step (sc_driver PU) (OpRun true) [] y with Ok (_, _, z) => sc_talk [numberedb PU (bs "+CIPRECVDATA") 13 5; Some (prefixb (bs "OK"))] sc_gives z
      | _ => false end | _ => false end) = true) by (vm_compute; reflexivity).
  apply (then_at _ _ _ _ _ _ _ _ _ _ _ E0 R1) in C1. cbv beta in C1. rewrite R2, Ec, !andb_true_iff in C1.
  destruct C1 as ((((C1 & C2) & C3) & C4) & C5 & C6). apply sc_restb_ok in C1. apply Z.leb_le in C2. apply Nat.ltb_lt in C3.
  assert (Hp : forall d : dv, true = true -> plain_lines (sc_shape PU) d) by (intros x _; split; [exact whole_ends|intros L H; exact H]).
  pose proof (fun tr d d' Hc ps H => talks_dialogue (sc_driver PU) (sc_shape PU) (sc_all False) sc_goodx sc_hum (silentb sc_hum_words) (fun L => proj1 (silentb_ok _ L)) (fun _ => true) Hp 64 tr d d' Hc ps H) as T.
  exists d0, tr0, d, tr1, d1, (e :: tr2 ++ []), d2. splits; auto.
  - rewrite <- M1 in C4. refine (dialogue_same _ _ _ _ _ _ _ _ _ _ _ (T tr1 d d1 H1 _ C4) _ _). number_replies.
  - assert (Hh : hears None e /\ roomy 64 d1 e).
    { assert (Me : runs_ 1 = map (fun e => (e_op e, e_sch e)) [e]) by (cbn [map]; rewrite Eo, Es; reflexivity). rewrite Me in C5.
      pose proof (T [e] d1 d1' (hist_cons _ _ _ _ _ _ _ _ _ Hs (hist_nil _ _ _ _ _)) _ C5) as Q. inversion Q; subst; auto. exfalso. rewrite Eo in *. discriminate. }
    destruct Hh as [Hh Hr]. apply (ch_cons _ _ _ _ _ e d1' _ _ _ d2); auto; [|constructor].
    rewrite <- Md in C6. refine (dialogue_same _ _ _ _ _ _ _ _ _ _ _ (T tr2 d1' d2 H2 _ C6) _ _). number_replies.
Qed.

(** ** Assumptions *)
Print Assumptions C75_cc_fetches.
Print Assumptions C75_cc_readable.
