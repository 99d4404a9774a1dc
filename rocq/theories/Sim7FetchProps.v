(** The SIM7x00 driver: data the modem reports is fetched and becomes readable, if
    the modem answers (C75). *)
From Coq Require Import String Ascii ZArith List Bool Arith Lia ZifyBool ZifyNat.
From Verif Require Import Base QueueSpec LineSpec SerialSpec Ring RingProofs LineRing LineRingProofs Serial SerialProofs
  SerStep TaskMacros CStr CStrProofs Dev DevProofs SimDev SimProofs SimSpec SimParse Sym DrvStep DrvCommon DrvRun DrvHist DrvHand DrvSend DrvFetch SimLog SimHand DrvTalk Session HandCheck DevProps
  Sim7x00 Sim7Spec Sim7Hist Sim7Thms Sim7Hand Sim7Send Sim7Fetch Sim7Props Sim7HandProps Sim7SendProps.
Import ListNotations.
Local Open Scope nat_scope.
Local Notation dv := (dev s7send s7reply simx).
Local Notation ent := (@entry simop).

(** Connected, with nothing to do. *)
Definition s7_vacant (d : dv) : Prop :=
  s7_at_ease d /\ fDisc (fl d) = false /\ fData (fl d) = false /\ toReceive d = 0%Z /\ toRead d = 0%Z /\ fLine (fl d) = true /\
  ring_ok (rbuf d) /\ avail (wbuf d) = 0.

(** The modem reports data, says that there are [n] bytes, and sends them in pieces
    of the sizes [ms]: they are asked for, and come into the read buffer in order. *)
Theorem C75_sim7_fetches : forall P N n ms d tr1 d1 tr2 d2 tr3 d3, s7_vacant d ->
  dialogue (s7_step P) s7_hum N (s7_fetch_replies P n) d tr1 d1 -> chunks (s7_step P) s7_hum N (s7_header P) d1 ms tr2 d2 -> dialogue (s7_step P) s7_hum N (s7_fetched_replies P) d2 tr3 d3 ->
  (0 < n < 2147483648)%Z -> Forall (fun m => (0 < m)%Z) ms -> fold_right Z.add 0%Z ms = n -> (Z.of_nat (avail (rbuf d)) + n <= Z.of_nat (rsize (rbuf d)))%Z -> 8 < rxsz (io d) -> 40 <= N ->
  exists ks, sent (tr1 ++ tr2 ++ tr3) = commands (bs "AT+CIPRXGET=4,0" :: map (fun k => bs "AT+CIPRXGET=2,0," ++ dec k) ks ++ [bs "AT+CIPRXGET=4,0"]) /\
    length ks = length ms /\ Forall (fun k => (k <= n)%Z /\ (k <= maxrx (ext d))%Z) ks /\
    contents (rbuf d3) = contents (rbuf d) ++ payloads (tr1 ++ tr2 ++ tr3) /\ Z.of_nat (length (payloads (tr1 ++ tr2 ++ tr3))) = n /\
    s7_vacant d3 /\ (ext d3, wbuf d3, typ d3, host d3, port d3, rsize (rbuf d3)) = (ext d, wbuf d, typ d, host d, port d, rsize (rbuf d)).
Proof.
  intros P N n ms d tr1 d1 tr2 d2 tr3 d3 ((R1 & R2 & R3 & R4 & R5 & R6) & F1 & F2 & F3 & F4 & F5 & F6 & Hv) H1 H2 H3 Hn Hms Hsum Hfit Hrx HN.
  assert (H0 : s7_on d s7_c0 (rbuf d) d).
  { unfold s7_on, s7_kept, s7_ctl, s7_c0. rewrite F1, F2, F3, F4, F5, R3, R4, R5, R6. splits; auto. }
  destruct (s7_fetches_all P N n ms d tr1 d1 tr2 d2 tr3 d3) as (ks & A1 & A2 & A3 & A4 & A5 & A6 & A7 & (K1 & K2 & K3 & K4) & K5 & K6); auto; try (unfold modest; lia); try lia.
  exists ks. unfold s7_ctl, s7_c0 in K5. apply pair_eq in K5 as [K5 C6]. apply pair_eq in K5 as [K5 C5]. apply pair_eq in K5 as [K5 C4]. apply pair_eq in K5 as [K5 C3]. apply pair_eq in K5 as [C1 C2].
  apply pair_eq in K2 as [K2 D3]. apply pair_eq in K2 as [D1 D2].
  assert (W : wbuf d3 = wbuf d) by congruence.
  splits; auto; [|congruence]. unfold s7_vacant, s7_at_ease. rewrite W. splits; auto.
Qed.

(** The bytes can be read: read() gives the first of them, if none were waiting. *)
Theorem C75_sim7_readable : forall P N n ms d tr1 d1 tr2 d2 tr3 d3 out m sch ev d', s7_vacant d ->
  dialogue (s7_step P) s7_hum N (s7_fetch_replies P n) d tr1 d1 -> chunks (s7_step P) s7_hum N (s7_header P) d1 ms tr2 d2 -> dialogue (s7_step P) s7_hum N (s7_fetched_replies P) d2 tr3 d3 ->
  (0 < n < 2147483648)%Z -> Forall (fun m => (0 < m)%Z) ms -> fold_right Z.add 0%Z ms = n -> (n <= Z.of_nat (rsize (rbuf d)))%Z -> 8 < rxsz (io d) -> 40 <= N ->
  contents (rbuf d) = [] -> d_step (s7_driver P) (OpRead m) sch d3 = Ok (out, ev, d') ->
  out = DData (firstn m (payloads (tr1 ++ tr2 ++ tr3))) (Nat.min m (Z.to_nat n)).
Proof.
  intros P N n ms d tr1 d1 tr2 d2 tr3 d3 out m sch ev d' Hr H1 H2 H3 Hn Hms Hsum Hfit Hrx HN Hc E.
  assert (Ha : avail (rbuf d) = 0).
  { assert (K : ring_ok (rbuf d)) by apply Hr. pose proof (contents_length _ (proj1 K)) as L. rewrite Hc in L. cbn in L. lia. }
  destruct (C75_sim7_fetches P N n ms d tr1 d1 tr2 d2 tr3 d3) as (ks & _ & _ & _ & A4 & A5 & A6 & _); auto; try lia.
  assert (K : ring_ok (rbuf d3)) by apply A6.
  destruct (C31_read _ _ _ _ _ _ _ _ _ _ _ K E) as (-> & _). rewrite Hc in A4. cbn [app] in A4.
  rewrite <- (contents_length _ (proj1 K)), A4. f_equal. f_equal. lia.
Qed.

(** A session: "hello" arrives, with echoes and empty lines in between. *)
Definition s7_hum_words : list string := ["OK"; "ERROR"; "+CIPRXGET:"; "+IPCLOSE: 0,"]%string.
Definition s7_reports : @script simop := dialog [crlf (bs ""); crlf (bs "+CIPRXGET: 1,0")] ++ runs_ 1 ++ dialog [crlf (bs "AT+CIPRXGET=4,0"); crlf (bs "+CIPRXGET: 4,0,5"); crlf (bs "OK")].
Definition s7_gives : @script simop := dialog [crlf (bs "+CIPRXGET: 2,0,5"); bs "he"] ++ [call OpBytesAvailable] ++ dialog [bs "llo"; crlf (bs ""); crlf (bs "OK")].
Definition s7_ends_fetch : @script simop := runs_ 1 ++ dialog [crlf (bs "+CIPRXGET: 4,0,0"); crlf (bs "OK")].
Definition s7_talk := talks (s7_driver PA) (silentb s7_hum_words) (fun _ => true) 64.
Definition s7_restb (d : dv) : bool :=
  s7_easeb d && negb (fDisc (fl d)) && negb (fData (fl d)) && (toReceive d =? 0)%Z && (toRead d =? 0)%Z && fLine (fl d) && ring_okb (rbuf d) && (avail (wbuf d) =? 0).
Lemma s7_restb_ok : forall d, s7_restb d = true -> s7_vacant d.
Proof.
  intros d H. unfold s7_restb in H. rewrite !andb_true_iff, !negb_true_iff in H. destruct H as (((((((H1 & H2) & H3) & H4) & H5) & H6) & H7) & H8).
  apply s7_easeb_ok in H1. apply Z.eqb_eq in H4, H5. apply ring_okb_ok in H7. apply Nat.eqb_eq in H8. unfold s7_vacant. splits; auto.
Qed.

Example C75_sim7_case : exists d0 tr0 d tr1 d1 tr2 d2 tr3 d3, s7_built d0 /\ s7_hist PA d0 tr0 d /\ s7_vacant d /\
  dialogue (s7_step PA) s7_hum 64 (s7_fetch_replies PA 5) d tr1 d1 /\ chunks (s7_step PA) s7_hum 64 (s7_header PA) d1 [5%Z] tr2 d2 /\
  dialogue (s7_step PA) s7_hum 64 (s7_fetched_replies PA) d2 tr3 d3 /\ (Z.of_nat (avail (rbuf d)) + 5 <= Z.of_nat (rsize (rbuf d)))%Z /\ 8 < rxsz (io d) /\
  contents (rbuf d3) = bs "hello".
Proof.
  destruct s7_ex_built as (d0 & E0 & Hb).
  set (h := s7_connects ++ s7_reports ++ call (OpRun true) :: s7_gives ++ s7_ends_fetch).
  assert (Hrun : exists d outs, d_run (s7_driver PA) d0 h = Ok (d, outs)).
  { assert (H : then_ (s7_driver PA) s7_ex h (fun _ => true) = true) by (vm_compute; reflexivity). unfold then_ in H. rewrite E0 in H.
    destruct (d_run (s7_driver PA) d0 h) as [[d outs]|u]; [eauto|discriminate H]. }
  destruct Hrun as (d3 & outs & Hrun).
  assert (Hv : s7_valid h). { apply (validb_ok _ (fun x => match x with SetApn p => strb p | _ => true end)); [intros [] H; try exact I; apply strb_ok, H|vm_compute; reflexivity]. }
  destruct (s7_every_run PA d0 h d3 outs Hb Hv Hrun) as (tra & Ha & Em & _).
  assert (Cz : then_ (s7_driver PA) s7_ex h (fun x => if list_eq_dec ascii_dec (contents (rbuf x)) (bs "hello") then true else false) = true) by (vm_compute; reflexivity).
  apply (then_at _ _ _ _ _ _ _ _ _ _ _ E0 Hrun) in Cz. cbv beta in Cz. destruct (list_eq_dec ascii_dec _ _) as [Cq|]; [clear Cz|discriminate Cz]. unfold h in Em.
  destruct (hist_part _ _ _ _ _ _ _ _ _ Ha Em) as (tr0 & trb & d & o1 & _ & M0 & Mb & H0 & Hb1 & R1).
  destruct (hist_part _ _ _ _ _ _ _ _ _ Hb1 Mb) as (tr1 & trc & d1 & o2 & _ & M1 & Mc & H1 & Hc1 & R2).
  destruct (hist_one _ _ _ _ _ _ _ _ _ Hc1 Mc) as (e & trd & d1' & _ & Eo & Es & Md & Hs & Hd1 & Ec). cbn [fst snd call] in Eo, Es, Ec.
  destruct (hist_part _ _ _ _ _ _ _ _ _ Hd1 Md) as (tr2 & tr3 & d2 & o3 & _ & M2 & M3 & H2 & H3 & R3).
  assert (C1 : then_ (s7_driver PA) s7_ex s7_connects (fun x => s7_restb x && (Z.of_nat (avail (rbuf x)) + 5 <=? Z.of_nat (rsize (rbuf x)))%Z && (8 <? rxsz (io x)) &&
    s7_talk [Some (prefixb (bs "+CIPRXGET: 1,0")); None; countedb PA (bs "+CIPRXGET: 4,0,") 5; Some (prefixb (bs "OK"))] s7_reports x &&
    match d_run (s7_driver PA) x s7_reports with Ok (y, _) => s7_talk [None] (runs_ 1) y &&
      match d_step (s7_driver PA) (OpRun true) [] y with Ok (_, _, z) => s7_talk [countedb PA (bs "+CIPRXGET: 2,0,") 5; Some (prefixb (bs "OK"))] s7_gives z &&
        match d_run (s7_driver PA) z s7_gives with Ok (w, _) => s7_talk [None; countedb PA (bs "+CIPRXGET: 4,0,") 0; Some (prefixb (bs "OK"))] s7_ends_fetch w | _ => false end
      | _ => false end | _ => false end) = true) by (vm_compute; reflexivity).
  apply (then_at _ _ _ _ _ _ _ _ _ _ _ E0 R1) in C1. cbv beta in C1. rewrite R2, Ec, R3, !andb_true_iff in C1.
  destruct C1 as ((((C1 & C2) & C3) & C4) & C5 & C6 & C7). apply s7_restb_ok in C1. apply Z.leb_le in C2. apply Nat.ltb_lt in C3.
  assert (Hp : forall d : dv, true = true -> plain_lines (s7_shape PA) d) by (intros x _; split; [exact whole_ends|intros L H; exact H]).
  pose proof (fun tr d d' Hc ps H => talks_dialogue (s7_driver PA) (s7_shape PA) s7_all s7_goodx s7_hum (silentb s7_hum_words) (fun L => proj1 (silentb_ok _ L)) (fun _ => true) Hp 64 tr d d' Hc ps H) as T.
  exists d0, tr0, d, tr1, d1, (e :: tr2 ++ []), d2, tr3, d3. splits; auto.
  - rewrite <- M1 in C4. refine (dialogue_same _ _ _ _ _ _ _ _ _ _ _ (T tr1 d d1 H1 _ C4) _ _). count_replies.
  - assert (Hh : hears None e /\ roomy 64 d1 e).
    { assert (Me : runs_ 1 = map (fun e => (e_op e, e_sch e)) [e]) by (cbn [map]; rewrite Eo, Es; reflexivity). rewrite Me in C5.
      pose proof (T [e] d1 d1' (hist_cons _ _ _ _ _ _ _ _ _ Hs (hist_nil _ _ _ _ _)) _ C5) as Q. inversion Q; subst; auto. exfalso. rewrite Eo in *. discriminate. }
    destruct Hh as [Hh Hr]. apply (ch_cons _ _ _ _ _ e d1' _ _ _ d2); auto; [|constructor].
    rewrite <- M2 in C6. refine (dialogue_same _ _ _ _ _ _ _ _ _ _ _ (T tr2 d1' d2 H2 _ C6) _ _). count_replies.
  - rewrite <- M3 in C7. refine (dialogue_same _ _ _ _ _ _ _ _ _ _ _ (T tr3 d2 d3 H3 _ C7) _ _). count_replies.
Qed.

(** ** Assumptions *)
Print Assumptions C75_sim7_fetches.
Print Assumptions C75_sim7_readable.
