(** What the two halves of a run() - reading a reply line, sending or receiving
    something - can do, in a form common to the four drivers. *)
From Coq Require Import String Ascii ZArith List Bool Arith Lia ZifyBool ZifyNat.
From Verif Require Import Base QueueSpec LineSpec SerialSpec Ring RingProofs LineRing LineRingProofs Serial SerialProofs
  SerStep TaskMacros CStr CStrProofs Dev DevProofs SimDev SimProofs Sym.
Import ListNotations.
Local Open Scope nat_scope.
Ltac Zify.zify_post_hook ::= Z.div_mod_to_equations.

Section Steps.
Context {SS RS X : Type}.
Notation dv := (dev SS RS X).
Variable isok : RS -> bool.
(** [says d cmd]: the driver may send the command [cmd] in state [d];
    [tail d]: what follows the length in AT+CIPSEND. *)
Variable says : dv -> bytes -> dv -> Prop.
Variable tail : dv -> bytes.
(** [insend]: the states in which announced data is still to be sent. *)
Variable insend : SS -> bool.

(** A reply is outstanding: no further command may be sent. *)
Definition awaiting (d : dv) : Prop := wait d <> None \/ isok (rst d) = false.

(** The bytes of an unfinished reply line. *)
Definition pending (d : dv) : bytes := firstn (lbfill d) (lbuf d).

(** Configuration and application data. *)
Definition keep (d d' : dv) : Prop :=
  isopen d' = isopen d /\ rbuf d' = rbuf d /\ wbuf d' = wbuf d /\ typ d' = typ d /\ host d' = host d /\ port d' = port d.
Definition keep_line (d d' : dv) : Prop := lbuf d' = lbuf d /\ lbfill d' = lbfill d.

(** What parsing a line leaves alone. *)
Definition pkeep (d d' : dv) : Prop :=
  io d' = io d /\ keep d d' /\ toWrite d' = toWrite d /\ lbfill d' = lbfill d.

(** What a run() did, as seen at the serial port: [q] are the bytes that were
    queued for sending (all of the intended ones if there was room), [tk] the bytes
    that were read. *)
Inductive act : Type :=
| aReset (q : bytes)               (* the reset command *)
| aMore (tk : bytes)               (* bytes of an unfinished line *)
| aDiscard (tk1 tk2 : bytes)       (* the same, and discarded payload *)
| aLine (tk L : bytes)             (* [tk] completed the line [L] *)
| aQuiet
| aCommand (cmd q : bytes)
| aAnnounce (n : Z) (q : bytes)    (* AT+CIPSEND with the length [n] *)
| aPayload (q : bytes)
| aReceive (tk : bytes).

Definition act_put (a : act) : bytes :=
  match a with aReset q | aCommand _ q | aAnnounce _ q | aPayload q => q | _ => [] end.
Definition act_taken (a : act) : bytes :=
  match a with aMore tk | aLine tk _ | aReceive tk => tk | aDiscard t1 t2 => t1 ++ t2 | _ => [] end.

(** The sending half. *)
Inductive olab (ch : bool) (d d' : dv) : act -> Prop :=
| ol_quiet :
    ioeff (io d) (io d') [] [] -> keep d d' -> keep_line d d' -> toWrite d' = toWrite d -> wait d' = wait d ->
    rst d' = rst d -> toRead d' = toRead d -> toReceive d' = toReceive d ->
    (insend (sst d') = true -> insend (sst d) = true) -> olab ch d d' aQuiet
| ol_command y cmd q :
    ~ awaiting d -> ioeff (io d) y [] [] -> 20 <= txsz y - txav y -> ioeff y (io d') [] q -> length q <= length cmd ->
    (txav y + length cmd <= txsz y -> q = cmd) -> cmd <> [] -> says d cmd d' ->
    keep d d' -> keep_line d d' -> toWrite d' = toWrite d -> awaiting d' -> wait d' <> Some (bs ">") ->
    toRead d' = toRead d -> toReceive d' = toReceive d ->
    (insend (sst d') = true -> insend (sst d) = true) -> olab ch d d' (aCommand cmd q)
| ol_announce y n q :
    ~ awaiting d -> ioeff (io d) y [] [] -> ioeff y (io d') [] q -> length q <= length (cipsend ch n ++ tail d) ->
    (txav y + length (cipsend ch n ++ tail d) <= txsz y -> q = cipsend ch n ++ tail d) -> keep d d' -> keep_line d d' ->
    0 < avail (wbuf d) ->
    toWrite d' = n -> (0 <= n)%Z -> (n + 22 <= Z.of_nat (txsz y) - Z.of_nat (txav y))%Z ->
    (sched (io d) = [] -> n = Z.min (Z.of_nat (avail (wbuf d))) (Z.of_nat (txsz (io d)) - Z.of_nat (txav (io d)) - 22)) ->
    wait d' = Some (bs ">") -> rst d' = rst d -> toRead d' = toRead d -> toReceive d' = toReceive d ->
    cst d' = csTransmitting -> insend (sst d) = false -> olab ch d d' (aAnnounce n q)
| ol_payload ev :
    ~ awaiting d -> sstep (io d) (io d') ev -> taken ev = [] -> ~ In EvFlushed ev ->
    length (put ev) <= Z.to_nat (toWrite d) -> (clean ev -> length (put ev) = Z.to_nat (toWrite d)) ->
    ring_wf (wbuf d') -> rsize (wbuf d') = rsize (wbuf d) ->
    (ring_ok (wbuf d) -> Z.to_nat (toWrite d) <= avail (wbuf d) ->
       ring_ok (wbuf d') /\ contents (wbuf d') = skipn (Z.to_nat (toWrite d)) (contents (wbuf d)) /\
       (clean ev -> put ev = firstn (Z.to_nat (toWrite d)) (contents (wbuf d)))) ->
    rbuf d' = rbuf d -> isopen d' = isopen d -> typ d' = typ d -> host d' = host d -> port d' = port d -> keep_line d d' ->
    wait d' <> None -> wait d' <> Some (bs ">") -> toRead d' = toRead d -> toReceive d' = toReceive d ->
    insend (sst d) = true -> insend (sst d') = false -> olab ch d d' (aPayload (put ev))
| ol_receive tk :
    ~ awaiting d -> ioeff (io d) (io d') tk [] -> Z.of_nat (length tk) = toRead d -> (0 < toRead d)%Z ->
    ring_wf (rbuf d') -> rsize (rbuf d') = rsize (rbuf d) ->
    (ring_ok (rbuf d) -> avail (rbuf d) + length tk <= rsize (rbuf d) ->
       ring_ok (rbuf d') /\ contents (rbuf d') = contents (rbuf d) ++ tk) ->
    wbuf d' = wbuf d -> isopen d' = isopen d -> typ d' = typ d -> host d' = host d -> port d' = port d -> keep_line d d' ->
    toWrite d' = toWrite d -> wait d' <> Some (bs ">") -> toRead d' = 0%Z -> toReceive d' = toReceive d ->
    fLine (fl d') = true ->
    (insend (sst d') = true -> insend (sst d) = true) -> olab ch d d' (aReceive tk).

Definition ostep (ch : bool) (d d' : dv) : Prop := exists a, olab ch d d' a.

Lemma o_quiet : forall ch d d',
    ioeff (io d) (io d') [] [] -> keep d d' -> keep_line d d' -> toWrite d' = toWrite d -> wait d' = wait d ->
    rst d' = rst d -> toRead d' = toRead d -> toReceive d' = toReceive d ->
    (insend (sst d') = true -> insend (sst d) = true) -> ostep ch d d'.
Proof. intros. eexists. apply ol_quiet; assumption. Qed.
Lemma o_command : forall ch d d' y cmd,
    ~ awaiting d -> ioeff (io d) y [] [] -> 20 <= txsz y - txav y -> wroteb y (io d') cmd -> cmd <> [] -> says d cmd d' ->
    keep d d' -> keep_line d d' -> toWrite d' = toWrite d -> awaiting d' -> wait d' <> Some (bs ">") ->
    toRead d' = toRead d -> toReceive d' = toReceive d ->
    (insend (sst d') = true -> insend (sst d) = true) -> ostep ch d d'.
Proof. intros ch d d' y cmd H1 H2 H3 (q & H4 & H5 & H6). intros. eexists. apply (ol_command _ _ _ y cmd q); assumption. Qed.
Lemma o_announce : forall ch d d' y n,
    ~ awaiting d -> ioeff (io d) y [] [] -> wroteb y (io d') (cipsend ch n ++ tail d) -> keep d d' -> keep_line d d' ->
    0 < avail (wbuf d) ->
    toWrite d' = n -> (0 <= n)%Z -> (n + 22 <= Z.of_nat (txsz y) - Z.of_nat (txav y))%Z ->
    (sched (io d) = [] -> n = Z.min (Z.of_nat (avail (wbuf d))) (Z.of_nat (txsz (io d)) - Z.of_nat (txav (io d)) - 22)) ->
    wait d' = Some (bs ">") -> rst d' = rst d -> toRead d' = toRead d -> toReceive d' = toReceive d ->
    cst d' = csTransmitting -> insend (sst d) = false -> ostep ch d d'.
Proof. intros ch d d' y n H1 H2 (q & H4 & H5 & H6). intros. eexists. apply (ol_announce _ _ _ y n q); assumption. Qed.
Lemma o_payload : forall ch d d' ev,
    ~ awaiting d -> sstep (io d) (io d') ev -> taken ev = [] -> ~ In EvFlushed ev ->
    length (put ev) <= Z.to_nat (toWrite d) -> (clean ev -> length (put ev) = Z.to_nat (toWrite d)) ->
    ring_wf (wbuf d') -> rsize (wbuf d') = rsize (wbuf d) ->
    (ring_ok (wbuf d) -> Z.to_nat (toWrite d) <= avail (wbuf d) ->
       ring_ok (wbuf d') /\ contents (wbuf d') = skipn (Z.to_nat (toWrite d)) (contents (wbuf d)) /\
       (clean ev -> put ev = firstn (Z.to_nat (toWrite d)) (contents (wbuf d)))) ->
    rbuf d' = rbuf d -> isopen d' = isopen d -> typ d' = typ d -> host d' = host d -> port d' = port d -> keep_line d d' ->
    wait d' <> None -> wait d' <> Some (bs ">") -> toRead d' = toRead d -> toReceive d' = toReceive d ->
    insend (sst d) = true -> insend (sst d') = false -> ostep ch d d'.
Proof. intros. eexists. apply (ol_payload _ _ _ ev); assumption. Qed.
Lemma o_receive : forall ch d d' tk,
    ~ awaiting d -> ioeff (io d) (io d') tk [] -> Z.of_nat (length tk) = toRead d -> (0 < toRead d)%Z ->
    ring_wf (rbuf d') -> rsize (rbuf d') = rsize (rbuf d) ->
    (ring_ok (rbuf d) -> avail (rbuf d) + length tk <= rsize (rbuf d) ->
       ring_ok (rbuf d') /\ contents (rbuf d') = contents (rbuf d) ++ tk) ->
    wbuf d' = wbuf d -> isopen d' = isopen d -> typ d' = typ d -> host d' = host d -> port d' = port d -> keep_line d d' ->
    toWrite d' = toWrite d -> wait d' <> Some (bs ">") -> toRead d' = 0%Z -> toReceive d' = toReceive d ->
    fLine (fl d') = true ->
    (insend (sst d') = true -> insend (sst d) = true) -> ostep ch d d'.
Proof. intros. eexists. apply (ol_receive _ _ _ tk); assumption. Qed.

(** The reading half: [whole] says when a line is complete, [Clears d L] for
    which reasons a line ends the waiting. *)
Variable whole part : dv -> bytes -> Prop.
Variable Clears : dv -> bytes -> Prop.

Inductive ilab (d : dv) (ret : bool) (d' : dv) : act -> Prop :=
| il_more tk :
    ret = false -> ioeff (io d) (io d') tk [] -> (fLine (fl d) = false -> tk = []) ->
    (fLine (fl d) = true -> rxav (io d') = 0) ->
    pending d' = pending d ++ tk -> part d (pending d') -> length (lbuf d') = 61 ->
    keep d d' -> fl d' = fl d -> cst d' = cst d -> wait d' = wait d -> sst d' = sst d -> rst d' = rst d ->
    toWrite d' = toWrite d -> toReceive d' = toReceive d -> toRead d' = toRead d -> rssi d' = rssi d ->
    tsk d' = tsk d -> ext d' = ext d -> ilab d ret d' (aMore tk)
| il_discard tk1 tk2 :
    ret = false -> fDisc (fl d) = true -> ioeff (io d) (io d') (tk1 ++ tk2) [] -> (fLine (fl d) = false -> tk1 = []) ->
    pending d' = pending d ++ tk1 -> part d (pending d') -> length (lbuf d') = 61 ->
    (Z.of_nat (length tk2) = toRead d \/ rxav (io d') = 0) -> (Z.of_nat (length tk2) <= toRead d)%Z -> toRead d' = (toRead d - Z.of_nat (length tk2))%Z -> toReceive d' = 0%Z ->
    keep d d' -> cst d' = cst d -> wait d' = wait d -> sst d' = sst d -> rst d' = rst d -> toWrite d' = toWrite d ->
    rssi d' = rssi d -> tsk d' = tsk d -> ext d' = ext d ->
    (toRead d' = 0%Z -> fLine (fl d') = true) -> (fl d' = fl d \/ fl d' = fl (on_line true d)) ->
    ilab d ret d' (aDiscard tk1 tk2)
| il_line tk L :
    ioeff (io d) (io d') tk [] -> tk <> [] -> L = pending d ++ tk -> whole d L -> lbfill d' = 0 -> keep d d' ->
    toWrite d' = toWrite d ->
    (wait d' = wait d \/ (wait d' = None /\ Clears d L)) ->
    (insend (sst d') = true -> insend (sst d) = true) -> fLine (fl d) = true ->
    ilab d ret d' (aLine tk L).

(** [line L]: what else is known when [L] was read. *)
Definition istep (line : bytes -> Prop) (d : dv) (ret : bool) (d' : dv) : Prop :=
  exists a, ilab d ret d' a /\ (forall tk L, a = aLine tk L -> line L).

End Steps.

(** The outcomes of reading bytes into the line buffer. *)
Definition fill_res {SS RS X} (d : dev SS RS X) (p : bool * dev SS RS X) : Prop :=
  (p = (false, d) /\ fLine (fl d) = false) \/
  (exists y tk lb, p = (false, set_lbfill (lbfill d + length tk) (set_lbuf lb (set_io y d))) /\
     fLine (fl d) = true /\ ioeff (io d) y tk [] /\ length lb = 61 /\ partial_line (pending d ++ tk) /\ rxav y = 0 /\
     firstn (lbfill d + length tk) lb = pending d ++ tk /\ lbfill d + length tk <= 59) \/
  (exists y tk lb r, p = (true, set_lbfill 0 (set_lbuf lb (set_io y d))) /\
     fLine (fl d) = true /\ ioeff (io d) y tk [] /\ length lb = 61 /\ tk <> [] /\ whole_line (pending d ++ tk) /\
     lb = (pending d ++ tk) ++ NUL :: r).

Lemma fill_ok : forall SS RS X (d : dev SS RS X), swf d -> line_ok d -> wp False (at_fill d) (fill_res d).
Proof.
  intros SS RS X d Hs Hl. apply wp_fill; auto.
  - intro H. left. auto.
  - intros y tk lb H1 H2 H3 H4 H5 H6 H7. right. left. exists y, tk, lb. splits; auto.
  - intros y tk lb H1 H2 H3 H4 H5 [r H6]. right. right. exists y, tk, lb, r. splits; auto.
Qed.

(** Reading without completing a line, including the discarding of payload
    after a disconnect request. *)
Lemma input_rest : forall SS RS X ins (C : dev SS RS X -> bytes -> Prop) (U : Prop) (recv : bool) (d d1 : dev SS RS X),
  dok d -> fill_res d (false, d1) ->
  wp U (if fDisc (fl d1) && recv then (let* d := at_flush_read_buffer d1 in Ok (false, d)) else Ok (false, d1))
    (fun p => dok (snd p) /\ sst (snd p) = sst d /\ rst (snd p) = rst d /\ ext (snd p) = ext d /\
       istep ins (fun _ => whole_line) (fun _ => partial_line) C (fun _ => False) d (fst p) (snd p)).
Proof.
  intros SS RS X ins C U recv d d1 H Hf. destruct H as (Hwf & Hr & Ht & Hrw & Hrs & Hww & Hws & Hwf2 & Hl & Hw & Htr & Htc & Hpo).
  assert (Hm : exists y tk lb, d1 = set_lbfill (lbfill d + length tk) (set_lbuf lb (set_io y d)) /\
    ioeff (io d) y tk [] /\ (fLine (fl d) = false -> tk = []) /\ (fLine (fl d) = true -> rxav y = 0) /\ length lb = 61 /\
    firstn (lbfill d + length tk) lb = pending d ++ tk /\ partial_line (pending d ++ tk) /\ lbfill d + length tk <= 59).
  { destruct Hf as [[E F]|[(y & tk & lb & E & F & HI & Hlb & Hpl & Hrx & Hfn & Hlf)|(y & tk & lb & r & E & _)]]; inversion E; subst d1.
    - exists (io d), [], (lbuf d). destruct Hl as (L1 & L2 & L3). rewrite !app_nil_r, Nat.add_0_r. splits; auto.
      + destruct d; reflexivity.
      + apply ioeff_refl; assumption.
      + intro. congruence.
    - exists y, tk, lb. splits; auto. intro. congruence. }
  clear Hf. destruct Hm as (y & tk & lb & E & HI & Hf0 & Hf1 & Hlb & Hfn & Hpl & Hlf). subst d1.
  pose proof (ioeff_wf _ _ _ _ HI) as Hwf'.
  ddev d. unfold pending in *. dsimp.
  destruct (fDisc fl0 && recv) eqn:Ed.
  - apply wp_bind. apply wp_flush_read_buffer; [assumption|assumption|]. intros y2 tk2 HI2 Hor Hle. dsimp. cbn [wp fst snd].
    pose proof (ioeff_wf _ _ _ _ HI2) as Hwf2'. pose proof (ioeff_trans _ _ _ _ _ _ _ HI HI2) as HI3. cbn [app] in HI3.
    assert (A1 : fits (rxsz y2)) by (sizes; assumption). assert (A2 : fits (txsz y2)) by (sizes; assumption).
    destruct (td0 =? Z.of_nat (length tk2))%Z eqn:Eq; unfold dok, line_ok; gs.
    all: splits; auto; try lia; try (rewrite Hfn; assumption).
    all: exists (aDiscard tk tk2); split; [|discriminate]; eapply (il_discard _ _ _ _ _ _ _ tk tk2); unfold pending, keep; gs; splits; auto; try lia; try (rewrite Hfn; assumption).
    all: apply andb_true_iff in Ed; try apply Ed.
  - cbn [wp fst snd]. assert (A1 : fits (rxsz y)) by (sizes; assumption). assert (A2 : fits (txsz y)) by (sizes; assumption).
    unfold dok, line_ok; gs. splits; auto; try lia; try (rewrite Hfn; assumption).
    exists (aMore tk); split; [|discriminate]; eapply (il_more _ _ _ _ _ _ _ tk); unfold pending, keep; gs; splits; auto; try (rewrite Hfn; assumption).
Qed.

(** A payload after some quiet port calls. *)
Lemma o_payload' : forall SS RS X (isok : RS -> bool) says tail ins ch (d d' : dev SS RS X) y ev,
  ioeff (io d) y [] [] -> sstep y (io d') ev ->
  ~ awaiting isok d -> taken ev = [] -> ~ In EvFlushed ev ->
    length (put ev) <= Z.to_nat (toWrite d) -> (clean ev -> length (put ev) = Z.to_nat (toWrite d)) ->
    ring_wf (wbuf d') -> rsize (wbuf d') = rsize (wbuf d) ->
    (ring_ok (wbuf d) -> Z.to_nat (toWrite d) <= avail (wbuf d) ->
       ring_ok (wbuf d') /\ contents (wbuf d') = skipn (Z.to_nat (toWrite d)) (contents (wbuf d)) /\
       (clean ev -> put ev = firstn (Z.to_nat (toWrite d)) (contents (wbuf d)))) ->
    rbuf d' = rbuf d -> isopen d' = isopen d -> typ d' = typ d -> host d' = host d -> port d' = port d -> keep_line d d' ->
    wait d' <> None -> wait d' <> Some (bs ">") -> toRead d' = toRead d -> toReceive d' = toReceive d ->
    ins (sst d) = true -> ins (sst d') = false -> ostep isok says tail ins ch d d'.
Proof.
  intros SS RS X isok says tail ins ch d d' y ev (e0 & S0 & C0 & F0 & T0 & P0 & _ & _) Hs Ha Ht Hf Hl Hc Hw Hz Hr. intros.
  assert (Hp : put (e0 ++ ev) = put ev) by (rewrite put_app, P0; reflexivity).
  assert (Hcl : clean (e0 ++ ev) -> clean ev) by (intro HH; apply clean_app in HH; tauto).
  apply (o_payload _ _ _ _ _ _ _ (e0 ++ ev)); auto; rewrite ?Hp; auto.
  - exact (sstep_trans _ _ _ _ _ S0 Hs).
  - rewrite taken_app, T0, Ht. reflexivity.
  - intro HH. apply in_app_iff in HH as [HH|HH]; contradiction.
  - intros Hx1 Hx2. destruct (Hr Hx1 Hx2) as (A1 & A2 & A3). splits; auto.
Qed.

(** Joining the effects of consecutive port calls, and closing leaf goals. *)
Ltac merge := repeat match goal with
  | W1 : wroteb ?a ?b _, W2 : wroteb ?b ?c _ |- _ =>
      let W := fresh "W" in pose proof (wroteb_trans _ _ _ _ _ W1 W2) as W; clear W1 W2
  | W1 : ioeff ?a ?b [] [], W2 : ioeff ?b ?c [] [] |- _ =>
      let W := fresh "I" in pose proof (ioeff_trans _ _ _ _ _ _ _ W1 W2) as W; cbn [app] in W;
      pose proof (ioeff_av _ _ _ _ W2); pose proof (ioeff_txsz _ _ _ _ W2); pose proof (ioeff_rxsz _ _ _ _ W2); clear W1 W2
  end.

Ltac nonempty :=
  let HH := fresh in intro HH; apply (f_equal (@length _)) in HH; rewrite ?app_length in HH; cbn in HH; lia.

Ltac small :=
  match goal with
  | |- keep _ _ => unfold keep; gs; splits; reflexivity
  | |- keep_line _ _ => unfold keep_line; gs; split; reflexivity
  | |- ~ awaiting _ _ => unfold awaiting; gs; let H := fresh in intros [H|H]; [congruence | discriminate]
  | |- awaiting _ _ => unfold awaiting; gs; first [left; discriminate | right; reflexivity]
  | |- _ <> [] => nonempty
  | |- _ = true -> _ = true => first [discriminate | exact (fun x => x)]
  | |- _ <> Some _ => discriminate
  | |- _ <> None => discriminate
  | |- wroteb _ _ _ => eassumption
  | |- ioeff ?a ?a [] [] => apply ioeff_refl; assumption
  | I1 : ioeff ?a ?b [] [], I2 : ioeff ?b ?c ?tk [] |- ioeff ?a ?c ?tk [] => exact (ioeff_trans _ _ _ _ _ _ _ I1 I2)
  | |- sched ?a = [] -> _ =>
      let Hs := fresh in intro Hs;
      repeat match goal with H : sched a = [] -> ?y = a |- _ => specialize (H Hs); subst y end;
      match goal with H : sched _ = [] -> ?n = _ |- ?n = _ => exact (H Hs) end
  | |- _ => reflexivity
  | |- _ => assumption
  | |- _ => cbn [length] in *; lia
  end.

Ltac ostep_leaf :=
  merge;
  match goal with
  | Hs : sstep ?a ?b ?ev, Hi : ioeff ?z ?a [] [] |- ostep _ _ _ _ _ _ _ =>
      apply (o_payload' _ _ _ _ _ _ _ _ _ _ a ev); gs
  | Hl : Z.of_nat (length ?tk) = _ |- ostep _ _ _ _ _ _ _ => apply (o_receive _ _ _ _ _ _ _ tk); gs
  | W : wroteb ?y ?z ?c |- ostep _ _ _ _ _ _ _ =>
      match c with context [cipsend ?ch ?n] => repeat rewrite <- app_assoc in W; apply (o_announce _ _ _ _ _ _ _ y n); gs end
  | W : wroteb ?y ?z ?c |- ostep _ _ _ _ _ _ _ => repeat rewrite <- app_assoc in W; match type of W with wroteb _ _ ?c' => apply (o_command _ _ _ _ _ _ _ y c') end; gs
  | |- ostep _ _ _ _ _ _ _ => apply o_quiet; gs
  end.
