(** Histories of calls to a modem driver, for any of the four drivers.

    A driver is described by an invariant and by what its run() may do (the
    record [contract]); everything here holds for every driver meeting it. *)
From Coq Require Import String Ascii ZArith List Bool Arith Lia ZifyBool ZifyNat.
From Verif Require Import Base QueueSpec LineSpec SerialSpec Ring RingProofs LineRing LineRingProofs Serial SerialProofs
  SerStep TaskMacros CStr CStrProofs Dev DevProofs SimDev SimProofs Sym DrvStep.
Import ListNotations.
Local Open Scope nat_scope.
Ltac Zify.zify_post_hook ::= Z.div_mod_to_equations.

(** What a driver is described by. *)
Record shape (SS RS X : Type) : Type := mkShape {
  sh_ok : RS -> bool;                                  (* the reply state "nothing expected" *)
  sh_says : dev SS RS X -> bytes -> dev SS RS X -> Prop;              (* the commands *)
  sh_tail : dev SS RS X -> bytes;                      (* what follows the length in AT+CIPSEND *)
  sh_insend : SS -> bool;                              (* announced data is still to be sent *)
  sh_ch : bool;                                        (* AT+CIPSEND has a channel number *)
  sh_whole : dev SS RS X -> bytes -> Prop;             (* complete reply lines *)
  sh_part : dev SS RS X -> bytes -> Prop;              (* incomplete ones *)
  sh_clears : dev SS RS X -> bytes -> Prop;            (* the lines that end the waiting *)
  sh_reset : bytes;                                    (* the reset command *)
  sh_error : SS;                                       (* the state after a failed open() *)
  sh_lock : bool;                                      (* run() does nothing while locked *)
  sh_goon : bool;                                      (* run() goes on after a reset *)
  sh_rext : dev SS RS X -> dev SS RS X -> Prop;        (* more about the reset, *)
  sh_iext : dev SS RS X -> bool -> act -> dev SS RS X -> Prop; (* about reading *)
  sh_oext : dev SS RS X -> act -> dev SS RS X -> Prop  (* and about sending *)
}.
Arguments sh_lock {SS RS X}. Arguments sh_goon {SS RS X}. Arguments sh_ok {SS RS X}. Arguments sh_says {SS RS X}. Arguments sh_tail {SS RS X}. Arguments sh_insend {SS RS X}.
Arguments sh_ch {SS RS X}. Arguments sh_whole {SS RS X}. Arguments sh_part {SS RS X}. Arguments sh_clears {SS RS X}.
Arguments sh_reset {SS RS X}. Arguments sh_error {SS RS X}.
Arguments sh_rext {SS RS X}. Arguments sh_iext {SS RS X}. Arguments sh_oext {SS RS X}. Arguments mkShape {SS RS X}.

Section Shape.
Context {SS RS X : Type}.
Notation dv := (dev SS RS X).
Variable Sh : shape SS RS X.

Definition resets (d : dv) (q : bytes) (d' : dv) : Prop :=
  (exists y ev, sstep (io d) y ev /\ clean ev /\ taken ev = [] /\ put ev = [] /\ rxav y = 0 /\ txav y <= txav (io d) /\
     ioeff y (io d') [] q /\ (txav y + length (sh_reset Sh) <= txsz y -> q = sh_reset Sh)) /\
  length q <= length (sh_reset Sh) /\ keep d d' /\ keep_line d d' /\ toWrite d' = 0%Z /\ toRead d' = 0%Z /\ toReceive d' = 0%Z /\
  cst d' = cst d /\ sh_ok Sh (rst d') = true /\ sh_insend Sh (sst d') = false /\ fReset (fl d') = false /\
  wait d' <> Some (bs ">") /\ (wait d' = None -> sh_reset Sh = []).

(** The beginning of a run(): the reset, if one is pending. *)
Definition prerun (d : dv) (l : list act) (d' : dv) : Prop :=
  (fReset (fl d) = false /\ l = [] /\ d' = d) \/ (fReset (fl d) = true /\ exists q, l = [aReset q] /\ resets d q d' /\ sh_rext Sh d d').

Notation olabS := (olab (sh_ok Sh) (sh_says Sh) (sh_tail Sh) (sh_insend Sh) (sh_ch Sh)).
Notation ilabS := (ilab (sh_insend Sh) (sh_whole Sh) (sh_part Sh) (sh_clears Sh)).

(** A run() that does something: the port is open and not locked, and a reset is
    the last thing it does if [sh_goon] is false. *)
Definition runs (d : dv) (l : list act) : Prop :=
  isopen d = true /\ (sh_lock Sh = true -> fLock (fl d) = false) /\ (sh_goon Sh = false -> l = []).

(** A run() that stops after the reset: only where [sh_goon] is false. *)
Definition runs_only (d : dv) : Prop :=
  isopen d = true /\ (sh_lock Sh = true -> fLock (fl d) = false) /\ sh_goon Sh = false.

(** One run(); [oo]: what open() would return. *)
Inductive rrun (oo : bool) (d : dv) : list act -> dv -> Prop :=
| rr_open : isopen d = false -> oo = true -> rrun oo d [] (set_isopen true d)
| rr_fail : isopen d = false -> oo = false -> rrun oo d [] (set_sst (sh_error Sh) d)
| rr_locked : isopen d = true -> fLock (fl d) = true -> rrun oo d [] d
| rr_reset l d1 : runs_only d -> fReset (fl d) = true -> prerun d l d1 -> rrun oo d l d1
| rr_line l d1 a d2 : runs d l -> prerun d l d1 -> ilabS d1 true d2 a -> sh_iext Sh d1 true a d2 -> rrun oo d (l ++ [a]) d2
| rr_full l d1 a d2 b d3 : runs d l -> prerun d l d1 -> ilabS d1 false d2 a -> sh_iext Sh d1 false a d2 ->
    olabS d2 d3 b -> sh_oext Sh d2 b d3 ->
    rrun oo d (l ++ [a; b]) d3.

Definition acts_put (l : list act) : bytes := concat (map act_put l).
Definition acts_taken (l : list act) : bytes := concat (map act_taken l).


Lemma ioeff_ev : forall y y' t p, ioeff y y' t p -> exists ev, sstep y y' ev /\ taken ev = t /\ put ev = p /\ clean ev.
Proof. intros y y' t p (ev & H1 & H2 & H3 & H4 & H5 & _). exists ev. auto. Qed.

Definition ispayload (a : act) : bool := match a with aPayload _ => true | _ => false end.

Lemma olab_io : forall d d' b, olabS d d' b ->
  exists ev, sstep (io d) (io d') ev /\ taken ev = act_taken b /\ put ev = act_put b /\ (ispayload b = false -> clean ev).
Proof.
  intros d d' b H. destruct H.
  - destruct (ioeff_ev _ _ _ _ H) as (ev & ? & ? & ? & ?). exists ev. auto.
  - destruct (ioeff_ev _ _ _ _ (ioeff_trans _ _ _ _ _ _ _ H0 H2)) as (ev & ? & ? & ? & ?). exists ev. auto.
  - destruct (ioeff_ev _ _ _ _ (ioeff_trans _ _ _ _ _ _ _ H0 H1)) as (ev & ? & ? & ? & ?). exists ev. auto.
  - exists ev. cbn. splits; auto. discriminate.
  - destruct (ioeff_ev _ _ _ _ H0) as (ev & ? & ? & ? & ?). exists ev. auto.
Qed.

Lemma ilab_io : forall d r d' a, ilabS d r d' a ->
  exists ev, sstep (io d) (io d') ev /\ taken ev = act_taken a /\ put ev = act_put a /\ clean ev.
Proof.
  intros d r d' a H. destruct H.
  - destruct (ioeff_ev _ _ _ _ H0) as (ev & ? & ? & ? & ?). exists ev. auto.
  - destruct (ioeff_ev _ _ _ _ H1) as (ev & ? & ? & ? & ?). exists ev. auto.
  - destruct (ioeff_ev _ _ _ _ H) as (ev & ? & ? & ? & ?). exists ev. auto.
Qed.

Lemma ilab_nopay : forall d r d' a, ilabS d r d' a -> ispayload a = false.
Proof. intros d r d' a H. destruct H; reflexivity. Qed.

Lemma prerun_io : forall d l d', serial_wf (ser (io d)) -> prerun d l d' ->
  exists ev, sstep (io d) (io d') ev /\ taken ev = acts_taken l /\ put ev = acts_put l /\ clean ev /\ existsb ispayload l = false.
Proof.
  intros d l d' Hw [(_ & -> & ->)|(_ & q & -> & ((y & ev & S1 & C1 & T1 & P1 & _ & _ & E & _) & _) & _)].
  - exists []. splits; try reflexivity. apply sstep_refl. assumption.
  - destruct (ioeff_ev _ _ _ _ E) as (ev2 & S2 & T2 & P2 & C2). exists (ev ++ ev2).
    unfold acts_taken, acts_put. cbn. splits; auto.
    + exact (sstep_trans _ _ _ _ _ S1 S2).
    + rewrite taken_app, T1, T2. reflexivity.
    + rewrite put_app, P1, P2, app_nil_r. reflexivity.
    + apply clean_app. auto.
Qed.

Lemma rrun_io : forall oo d l d', serial_wf (ser (io d)) -> rrun oo d l d' ->
  exists ev, sstep (io d) (io d') ev /\ taken ev = acts_taken l /\ put ev = acts_put l /\ (existsb ispayload l = false -> clean ev).
Proof.
  intros oo d l d' Hw H. destruct H as [| | |l d1 _ _ HP|l d1 a d2 _ HP HI _|l d1 a d2 b d3 _ HP HI _ HO _].
  - exists []. splits; try reflexivity. apply sstep_refl. assumption.
  - exists []. splits; try reflexivity. apply sstep_refl. assumption.
  - exists []. splits; try reflexivity. apply sstep_refl. assumption.
  - destruct (prerun_io _ _ _ Hw HP) as (ev & A1 & A2 & A3 & A4 & _). exists ev. auto.
  - destruct (prerun_io _ _ _ Hw HP) as (ev & A1 & A2 & A3 & A4 & _).
    destruct (ilab_io _ _ _ _ HI) as (ev2 & B1 & B2 & B3 & B4). exists (ev ++ ev2). splits.
    + exact (sstep_trans _ _ _ _ _ A1 B1).
    + unfold acts_taken in *. rewrite taken_app, A2, B2, map_app, concat_app. cbn. rewrite app_nil_r. reflexivity.
    + unfold acts_put in *. rewrite put_app, A3, B3, map_app, concat_app. cbn. rewrite app_nil_r. reflexivity.
    + intros _. apply clean_app. auto.
  - destruct (prerun_io _ _ _ Hw HP) as (ev & A1 & A2 & A3 & A4 & A5).
    destruct (ilab_io _ _ _ _ HI) as (ev2 & B1 & B2 & B3 & B4).
    destruct (olab_io _ _ _ HO) as (ev3 & C1 & C2 & C3 & C4). exists (ev ++ ev2 ++ ev3). splits.
    + exact (sstep_trans _ _ _ _ _ A1 (sstep_trans _ _ _ _ _ B1 C1)).
    + unfold acts_taken in *. rewrite !taken_app, A2, B2, C2, map_app, concat_app. cbn. rewrite app_nil_r. reflexivity.
    + unfold acts_put in *. rewrite !put_app, A3, B3, C3, map_app, concat_app. cbn. rewrite app_nil_r. reflexivity.
    + rewrite existsb_app. cbn. rewrite orb_false_r. intro HH. apply orb_false_iff in HH as [_ HH]. apply orb_false_iff in HH as [_ HH].
      apply clean_app. split; [assumption|]. apply clean_app. auto.
Qed.
End Shape.

(** resetStates(): only the extra members of the driver are left open. *)
Definition resetstates {SS RS X} (Sh : shape SS RS X) (d d' : dev SS RS X) : Prop :=
  exists y ev s0 r0 rs x, sstep (io d) y ev /\ clean ev /\ taken ev = [] /\ put ev = [] /\ rxav y = 0 /\
    (forall q, rx_replay ev q = Some []) /\ sh_ok Sh r0 = true /\ sh_insend Sh s0 = false /\
    d' = mkDev y (isopen d) (ring_flush (rbuf d)) (ring_flush (wbuf d)) (typ d) (host d) (port d) flags_line_read
          csNotConnected None (lbuf d) 0 s0 r0 0%Z 0%Z 0%Z rs (tsk d) x.

(** The calls a driver adds touch neither the port nor the connection. *)
Definition xkeep {SS RS X} (d d' : dev SS RS X) : Prop :=
  io d' = io d /\ keep d d' /\ keep_line d d' /\ toWrite d' = toWrite d /\ toRead d' = toRead d /\ toReceive d' = toReceive d /\
  wait d' = wait d /\ sst d' = sst d /\ rst d' = rst d /\ cst d' = cst d /\ rssi d' = rssi d /\
  fConnect (fl d') = fConnect (fl d) /\ fReset (fl d') = fReset (fl d) /\ fData (fl d') = fData (fl d) /\
  fDisc (fl d') = fDisc (fl d) /\ fIp (fl d') = fIp (fl d) /\ fLine (fl d') = fLine (fl d).

(** Calls with valid arguments: pointers to strings, and no more bytes to write
    than the array has. *)
Definition goodop {XO} (goodx : XO -> Prop) (o : dop XO) : Prop :=
  match o with
  | OpSetHostPort h _ _ => exists s, h = PStr s
  | OpWrite data n => n <= length data
  | OpSerialWrite p => exists s, p = PStr s
  | OpX x => goodx x
  | _ => True
  end.

Record contract {SS RS X XO : Type} (D : driver SS RS X XO) (Sh : shape SS RS X) (Inv : dev SS RS X -> Prop)
    (Bad : dop XO -> dev SS RS X -> Prop) (goodx : XO -> Prop) : Prop := mkContract {
  c_wf : forall d, Inv d -> serial_wf (ser (io d)) /\ ring_wf (rbuf d) /\ 0 < rsize (rbuf d) /\ ring_wf (wbuf d) /\ 0 < rsize (wbuf d);
  c_io : forall y d, Inv d -> serial_wf (ser y) -> rxsz y = rxsz (io d) -> txsz y = txsz (io d) -> Inv (set_io y d);
  c_closed : forall d, Inv d -> Inv (set_isopen false d);
  c_host : forall s p t d, Inv d -> Inv (ip_set_host_port (PStr s) p t d);
  c_disc : forall d, Inv d -> Inv (on_disc true d);
  c_rbuf : forall r d, Inv d -> ring_wf r -> rsize r = rsize (rbuf d) -> Inv (set_rbuf r d);
  c_wbuf : forall r d, Inv d -> ring_wf r -> rsize r = rsize (wbuf d) -> Inv (set_wbuf r d);
  c_rssi : forall d, Inv d -> Inv (set_rssi INT16_MAX d);
  c_run : forall oo d, Inv d -> wp (Bad (OpRun oo) d) (drv_run D oo d) (fun d' => Inv d' /\ exists l, rrun Sh oo d l d');
  c_reset : forall d, Inv d -> wp False (drv_reset D d) (fun d' => Inv d' /\ resetstates Sh d d');
  c_connect : forall d, Inv d -> wp (Bad OpConnect d) (drv_connect D d)
    (fun p => Inv (snd p) /\ (fst p = false /\ snd p = d \/ fst p = true /\ snd p = on_connect true d));
  c_x : forall x d, goodx x -> Inv d -> wp (Bad (OpX x) d) (drv_x D x d) (fun p => Inv (snd p) /\ xkeep d (snd p))
}.

Lemma s_read_loop_io : forall n y, serial_wf (ser y) -> n <= rxav y ->
  exists cs y', s_read_loop n y = Ok (cs, y') /\ length cs = n /\ ioeff y y' cs [].
Proof.
  induction n as [|n IH]; intros y Hw Hn; cbn [s_read_loop].
  - exists [], y. splits; auto. apply ioeff_refl. assumption.
  - destruct (s_read_q y Hw ltac:(lia)) as (c & y1 & E & T). pose proof (took_ioeff _ _ _ T) as T1.
    destruct (IH y1) as (cs & y2 & E2 & L & T2).
    + exact (ioeff_wf _ _ _ _ T1).
    + apply ioeff_av in T1. cbn in T1. lia.
    + exists (c :: cs), y2. rewrite E. cbn [bind]. rewrite E2. cbn [bind]. splits; [reflexivity|cbn; lia|].
      exact (ioeff_trans _ _ _ _ _ _ _ T1 T2).
Qed.

Lemma s_read_many_io : forall n y, serial_wf (ser y) ->
  exists cs y', s_read_many n y = Ok (cs, length cs, y') /\ length cs <= n /\ ioeff y y' cs [].
Proof.
  intros n y Hw. unfold s_read_many. destruct (s_avail_q y Hw) as (y1 & E & Q). rewrite E. cbn [bind].
  apply quiet_ioeff in Q.
  destruct (s_read_loop_io (if rxav y1 <? n then rxav y1 else n) y1) as (cs & y2 & E2 & L & T).
  - exact (ioeff_wf _ _ _ _ Q).
  - destruct (rxav y1 <? n) eqn:Z; [lia|]. apply Nat.ltb_ge in Z. lia.
  - exists cs, y2. rewrite E2, L. cbn [bind]. splits; auto.
    + destruct (rxav y1 <? n) eqn:Z; [apply Nat.ltb_lt in Z|]; lia.
    + exact (ioeff_trans _ _ _ _ _ _ _ Q T).
Qed.

Lemma clean_nil : clean [].
Proof. reflexivity. Qed.

Lemma sstep_log : forall y y' ev, sstep y y' ev -> slog y' = slog y ++ ev.
Proof. intros y y' ev H. apply H. Qed.

Section Histories.
Context {SS RS X XO : Type}.
Notation dv := (dev SS RS X).
Variable D : driver SS RS X XO.
Variable Sh : shape SS RS X.
Variable Inv : dv -> Prop.
Variable Bad : dop XO -> dv -> Prop.
Variable goodx : XO -> Prop.
Hypothesis HC : contract D Sh Inv Bad goodx.

(** The device at the beginning of a call: [sch] are the interrupts to come. *)
Definition during (sch : list (list isr)) (d : dv) : dv := set_io (mkSys (ser (io d)) sch []) d.

(** What a call did: for run() the actions, otherwise the code itself tells. *)
Definition callrel (o : dop XO) (d : dv) (out : dobs) (l : list act) (d' : dv) : Prop :=
  match o with
  | OpRun oo => rrun Sh oo d l d' /\ out = DNone
  | OpResetStates => l = [] /\ resetstates Sh d d' /\ out = DNone /\ drv_reset D d = Ok d'
  | OpX x => l = [] /\ xkeep d d' /\ drv_x D x d = Ok (out, d')
  | _ => l = [] /\ d_call D o d = Ok (out, d')
  end.

(** The bytes a call takes from the port and queues for sending; serialRead()
    and serialWrite() move bytes, too. *)
Definition call_io (o : dop XO) (out : dobs) (l : list act) (t p : bytes) : Prop :=
  match o with
  | OpRun _ => t = acts_taken l /\ p = acts_put l
  | OpSerialRead _ => p = [] /\ (out = DData t (length t))
  | OpSerialWrite s => t = []
  | _ => t = [] /\ p = []
  end.

Lemma during_inv : forall sch d, Inv d -> Inv (during sch d).
Proof. intros sch d H. apply (c_io _ _ _ _ _ HC); auto. apply (c_wf _ _ _ _ _ HC d H). Qed.

Lemma set_io_same : forall d : dv, set_io (io d) d = d.
Proof. intros []; reflexivity. Qed.

Definition nopay (l : list act) : bool := negb (existsb ispayload l).

Lemma call_ok : forall o d, Inv d -> goodop goodx o -> wp (Bad o d) (d_call D o d) (fun p =>
  Inv (snd p) /\ exists l ev, callrel o d (fst p) l (snd p) /\ sstep (io d) (io (snd p)) ev /\
    call_io o (fst p) l (taken ev) (put ev) /\ (nopay l = true -> clean ev)).
Proof.
  intros o d HI Hg. pose proof (c_wf _ _ _ _ _ HC d HI) as (Hw & Hrw & Hrs & Hww & Hws).
  assert (Same : forall out d', io d' = io d -> Inv d' -> d_call D o d = Ok (out, d') ->
    (forall l, callrel o d out l d' <-> l = [] /\ d_call D o d = Ok (out, d')) ->
    (forall t p, call_io o out [] t p <-> t = [] /\ p = []) ->
    wp (Bad o d) (d_call D o d) (fun p =>
      Inv (snd p) /\ exists l ev, callrel o d (fst p) l (snd p) /\ sstep (io d) (io (snd p)) ev /\
    call_io o (fst p) l (taken ev) (put ev) /\ (nopay l = true -> clean ev))).
  { intros out d' E HI' Ec Hc Hio. rewrite Ec. cbn [wp fst snd]. split; [assumption|]. exists [], []. rewrite E.
    split; [apply Hc; auto|]. split; [apply sstep_refl; assumption|]. split; [apply Hio; auto|]. intros _. apply clean_nil. }
  assert (S0 : forall l : list act, forall Q : Prop, (l = [] /\ Q) <-> (l = [] /\ Q)) by tauto.
  destruct o as [|oo| |h p t| | | | | | |n|data n| | |s|n| | |x]; cbn [goodop] in Hg.
  - eapply Same; try reflexivity; auto.
  - cbn [d_call callrel call_io]. pose proof (c_run _ _ _ _ _ HC oo d HI) as H. apply wp_bind.
    eapply wp_mono; [exact H|]. intros d' (HI' & l & Hr). cbn [wp fst snd]. split; [assumption|].
    destruct (rrun_io Sh oo d l d' Hw Hr) as (ev & E1 & E2 & E3 & E4). exists l, ev. splits; auto.
    unfold nopay. intro Hn. apply E4. apply negb_true_iff in Hn. exact Hn.
  - eapply Same; [| |reflexivity|..]; cbn [callrel call_io]; auto; try tauto. apply (c_closed _ _ _ _ _ HC). assumption.
  - destruct Hg as [s ->]. eapply Same; [| |reflexivity|..]; cbn [callrel call_io]; auto; try tauto. apply (c_host _ _ _ _ _ HC). assumption.
  - cbn [d_call callrel call_io]. pose proof (c_connect _ _ _ _ _ HC d HI) as H. destruct (drv_connect D d) as [[b d']|u] eqn:E; [|exact H].
    cbn [wp bind fst snd] in *. destruct H as (HI' & Hc). split; [assumption|]. exists [], [].
    assert (io d' = io d) as -> by (destruct Hc as [[_ ->]|[_ ->]]; reflexivity).
    splits; auto using sstep_refl. intros _; apply clean_nil.
  - eapply Same; [| |reflexivity|..]; cbn [callrel call_io]; auto; try tauto; unfold ip_disconnect; destruct (ip_is_idle d); auto.
    apply (c_disc _ _ _ _ _ HC). assumption.
  - eapply Same; [| |reflexivity|..]; cbn [callrel call_io]; auto; try tauto.
  - eapply Same; [| |reflexivity|..]; cbn [callrel call_io]; auto; try tauto.
  - eapply Same; [| |reflexivity|..]; cbn [callrel call_io]; auto; try tauto.
  - eapply Same; [| |reflexivity|..]; cbn [callrel call_io]; auto; try tauto.
  - destruct (ring_pull_many_wf (rbuf d) n Hrw) as (r & E & W & Z & _).
    eapply Same with (d' := set_rbuf r d); [| |cbn [d_call]; unfold ip_read; rewrite E; reflexivity|..]; cbn [callrel call_io]; auto; try tauto.
    apply (c_rbuf _ _ _ _ _ HC); assumption.
  - destruct (cst d) eqn:Ec; try (eapply Same; [| |cbn [d_call]; unfold ip_write; rewrite Ec; reflexivity|..]; cbn [callrel call_io]; auto; tauto).
    destruct (ring_push_many_wf (wbuf d) data n Hww ltac:(lia)) as (r & E & W & Z & _).
    eapply Same with (d' := set_wbuf r d); [| |cbn [d_call]; unfold ip_write; rewrite Ec, E; reflexivity|..]; cbn [callrel call_io]; auto; try tauto.
    apply (c_wbuf _ _ _ _ _ HC); assumption.
  - eapply Same; [| |reflexivity|..]; cbn [callrel call_io]; auto; try tauto.
  - cbn [d_call callrel call_io]. pose proof (c_reset _ _ _ _ _ HC d HI) as Hr.
    destruct (drv_reset D d) as [d'|] eqn:Ed0; [|destruct Hr]. cbn [bind wp fst snd] in *. destruct Hr as (HI' & Hr). split; [assumption|]. pose proof Hr as (y & ev & s0 & r0 & rs & x & E1 & E2 & E3 & E4 & _ & _ & _ & _ & Ed).
    exists [], ev. subst d'. splits; auto.
  - destruct Hg as [s0 ->]. destruct (fLock (fl d)) eqn:El.
    + destruct (s_write_str_q (s0 ++ [NUL]) (io d) Hw) as (k & y & E & W & Hk); [apply in_or_app; right; left; reflexivity|].
      cbn [callrel call_io d_call]. unfold at_serial_write. rewrite El, E. cbn [bind wp fst snd].
      destruct W as (ev & W1 & W2 & W3 & W4 & W5). split.
      * apply (c_io _ _ _ _ _ HC); [assumption|exact (sstep_wf _ _ _ W1)|apply (sstep_caps _ _ _ W1)|apply (sstep_caps _ _ _ W1)].
      * exists [], ev. splits; auto.
    + cbn [callrel call_io d_call]. unfold at_serial_write. rewrite El. cbn [bind wp fst snd]. split; [assumption|].
      exists [], []. splits; auto using sstep_refl. intros _; apply clean_nil.
  - destruct (fLock (fl d)) eqn:El.
    + destruct (s_read_many_io n (io d) Hw) as (cs & y & E & L & T).
      cbn [callrel call_io d_call]. unfold at_serial_read. rewrite El, E. cbn [bind wp fst snd]. split.
      * apply (c_io _ _ _ _ _ HC); [assumption|exact (ioeff_wf _ _ _ _ T)|apply (ioeff_caps _ _ _ _ T)|apply (ioeff_caps _ _ _ _ T)].
      * destruct (ioeff_ev _ _ _ _ T) as (ev & T1 & T2 & T3 & T4). exists [], ev. rewrite T2. splits; auto.
    + cbn [callrel call_io d_call]. unfold at_serial_read. rewrite El. cbn [bind wp fst snd]. split; [assumption|].
      exists [], []. splits; auto using sstep_refl. intros _; apply clean_nil.
  - eapply Same; [| |reflexivity|..]; cbn [callrel call_io]; auto; try tauto. apply (c_rssi _ _ _ _ _ HC). assumption.
  - eapply Same; [| |reflexivity|..]; cbn [callrel call_io]; auto; try tauto.
  - cbn [d_call callrel call_io]. pose proof (c_x _ _ _ _ _ HC x d Hg HI) as Hk.
    destruct (drv_x D x d) as [[out d']|] eqn:Ex; [|exact Hk]. cbn [wp fst snd] in *.
    destruct Hk as [HI' Hk]. split; [assumption|]. exists [], [].
    destruct Hk as [Hio Hk]. rewrite Hio.
    split; [split; [reflexivity|split; [split; assumption|reflexivity]]|]. split; [apply sstep_refl; assumption|]. split; [split; reflexivity|intros _; apply clean_nil].
Qed.

(** The port over a whole call. *)
Definition wire (s s' : serial) (ev : list event) : Prop :=
  serial_wf s' /\ caps s' = caps s /\
  (forall q, lring_is (srx s) q -> clean ev -> exists q', lring_is (srx s') q' /\ rx_replay ev q = Some q') /\
  (forall t, lring_is (stx s) t -> clean ev -> exists t', lring_is (stx s') t' /\ tx_replay ev t = Some t').

(** One call of a history: the call, its interrupts, what was observed, what
    happened at the port, and the actions of a run(). *)
Record entry : Type := mkEntry { e_op : dop XO; e_sch : list (list isr); e_out : dobs; e_ev : list event; e_acts : list act }.

Definition estep (d : dv) (e : entry) (d' : dv) : Prop :=
  Inv d /\ Inv d' /\ goodop goodx (e_op e) /\ d_step D (e_op e) (e_sch e) d = Ok (e_out e, e_ev e, d') /\
  sched (io d') = [] /\ wire (ser (io d)) (ser (io d')) (e_ev e) /\
  call_io (e_op e) (e_out e) (e_acts e) (taken (e_ev e)) (put (e_ev e)) /\
  (nopay (e_acts e) = true -> clean (e_ev e)) /\
  exists d1, callrel (e_op e) (during (e_sch e) d) (e_out e) (e_acts e) d1 /\ d' = set_io (io d') d1 /\
    (exists ev2, e_ev e = slog (io d1) ++ ev2) /\ (e_sch e = [] -> ser (io d') = ser (io d1)) /\ rxav (io d1) <= rxav (io d') /\ txav (io d') <= txav (io d1).

Lemma step_ok : forall o sch d, Inv d -> goodop goodx o -> wp (Bad o (during sch d)) (d_step D o sch d) (fun p =>
  exists l, estep d (mkEntry o sch (fst (fst p)) (snd (fst p)) l) (snd p)).
Proof.
  intros o sch d HI Hg. unfold d_step. apply wp_bind. fold (during sch d).
  pose proof (call_ok o (during sch d) (during_inv sch d HI) Hg) as Hc.
  destruct (d_call D o (during sch d)) as [[out d1]|u] eqn:Ec; [|exact Hc]. cbn [wp fst snd] in *.
  destruct Hc as (HI1 & l & ev & Hr & Hs & Hio & Hcl).
  pose proof (c_wf _ _ _ _ _ HC d1 HI1) as (Hw & _).
  destruct (run_isrs_wf (concat (sched (io d1))) (ser (io d1)) Hw) as (s' & ev2 & E & W & C & F & _).
  destruct (run_isrs_mono _ _ _ _ Hw E) as (A1 & A2 & Q & T). rewrite E. cbn [bind wp fst snd].
  destruct (isr_ev_quiet ev2 F) as (T2 & P2 & C2).
  pose proof Hs as (_ & Hcap & Hlog & _ & Hq & Ht & Hsc). cbn [slog io during set_io] in Hlog.
  replace (slog (io d1)) with ev by (rewrite Hlog; destruct d; reflexivity).
  exists l. unfold estep. cbn [e_op e_sch e_out e_ev e_acts].
  assert (Hio0 : io (during sch d) = mkSys (ser (io d)) sch []) by (destruct d; reflexivity).
  rewrite Hio0 in Hq, Ht, Hcap, Hsc. cbn [ser sched] in Hq, Ht, Hcap, Hsc.
  assert (Hio1 : forall y, io (set_io y d1) = y) by (intro; destruct d1; reflexivity).
  rewrite !Hio1. cbn [ser sched].
  split; [assumption|]. split.
  { apply (c_io _ _ _ _ _ HC); [assumption|assumption|..]; unfold rxsz, txsz; cbn [ser]; unfold caps in C; congruence. }
  split; [assumption|]. split.
  { unfold d_step. fold (during sch d). rewrite Ec. cbn [bind]. rewrite E. cbn [bind].
    replace (slog (io d1)) with ev by (rewrite Hlog; destruct d; reflexivity). reflexivity. }
  split; [reflexivity|]. split.
  { split; [assumption|]. split; [congruence|]. split.
    - intros q Hq0 Hcl0. apply clean_app in Hcl0 as [Hc1 _]. destruct (Hq q Hq0 Hc1) as (q1 & G1 & G2).
      destruct (Q q1 G1) as (q2 & G3 & G4). exists q2. split; [assumption|]. rewrite rx_replay_app, G2. exact G4.
    - intros q Hq0 Hcl0. apply clean_app in Hcl0 as [Hc1 _]. destruct (Ht q Hq0 Hc1) as (q1 & G1 & G2).
      destruct (T q1 G1) as (q2 & G3 & G4). exists q2. split; [assumption|]. rewrite tx_replay_app, G2. exact G4. }
  rewrite taken_app, put_app, T2, P2, !app_nil_r. split; [assumption|]. split.
  { intro Hn. apply clean_app. auto. }
  exists d1. split; [assumption|]. split; [reflexivity|]. split; [exists ev2; rewrite Hlog; destruct d; reflexivity|].
  split; [|split; assumption].
  intro Hsch. rewrite (Hsc Hsch) in E. cbn in E. congruence.
Qed.

(** A history of calls. *)
Inductive hist : dv -> list entry -> dv -> Prop :=
| hist_nil d : hist d [] d
| hist_cons d e d1 tr d2 : estep d e d1 -> hist d1 tr d2 -> hist d (e :: tr) d2.

Theorem run_hist : forall h d d' outs, Inv d -> Forall (fun p => goodop goodx (fst p)) h -> d_run D d h = Ok (d', outs) ->
  exists tr, hist d tr d' /\ Inv d' /\ map (fun e => (e_op e, e_sch e)) tr = h /\ map (fun e => (e_out e, e_ev e)) tr = outs.
Proof.
  induction h as [|[o sch] h IH]; intros d d' outs HI Hg Hr; cbn [d_run] in Hr.
  - inversion Hr. subst. exists []. splits; auto. constructor.
  - inversion Hg as [|? ? Hg1 Hg2]; subst. cbn [fst] in Hg1. pose proof (step_ok o sch d HI Hg1) as Hs.
    destruct (d_step D o sch d) as [[[out ev] d1]|] eqn:E1; [|discriminate]. cbn [bind wp fst snd] in *.
    destruct (d_run D d1 h) as [[d2 outs2]|] eqn:E2; [|discriminate]. cbn [bind] in Hr. inversion Hr; subst.
    destruct Hs as [l Hs]. pose proof Hs as (_ & HI1 & _).
    destruct (IH d1 d' outs2 HI1 Hg2 E2) as (tr & H1 & H2 & H3 & H4).
    exists (mkEntry o sch out ev l :: tr). split; [econstructor; eassumption|]. split; [assumption|].
    cbn [map e_op e_sch e_out e_ev]. split; congruence.
Qed.

(** A history goes wrong only at a call that the contract says may. *)
Theorem run_safe : forall h d u, Inv d -> Forall (fun p => goodop goodx (fst p)) h -> d_run D d h = UB u ->
  exists h1 o sch h2 d1 outs, h = h1 ++ (o, sch) :: h2 /\ d_run D d h1 = Ok (d1, outs) /\ Inv d1 /\ Bad o (during sch d1).
Proof.
  induction h as [|[o sch] h IH]; intros d u HI Hg Hr; cbn [d_run] in Hr; [discriminate|].
  inversion Hg as [|? ? Hg1 Hg2]; subst. cbn [fst] in Hg1. pose proof (step_ok o sch d HI Hg1) as Hs.
  destruct (d_step D o sch d) as [[[out ev] d1]|] eqn:E1; cbn [bind wp fst snd] in *.
  - destruct Hs as [l (_ & HI1 & _)].
    destruct (d_run D d1 h) as [[d2 outs2]|u'] eqn:E2; [discriminate|].
    destruct (IH d1 u' HI1 Hg2 E2) as (h1 & o1 & sch1 & h2 & d2 & outs & E & Er & HI2 & HB).
    exists ((o, sch) :: h1), o1, sch1, h2, d2, ((out, ev) :: outs). subst h. cbn [app d_run]. rewrite E1. cbn [bind].
    rewrite Er. cbn [bind]. splits; auto.
  - exists [], o, sch, h, d, []. splits; auto.
Qed.

Lemma hist_app : forall d a d1, hist d a d1 -> forall b d2, hist d1 b d2 -> hist d (a ++ b) d2.
Proof. induction 1; intros; cbn; [assumption|econstructor; eauto]. Qed.
Lemma hist_snoc : forall d tr e d', hist d (tr ++ [e]) d' -> exists d1, hist d tr d1 /\ estep d1 e d'.
Proof.
  intros d tr e d'. revert d. induction tr as [|e0 tr IH]; intros d H; inversion H; subst.
  - inversion H5; subst. exists d. split; [constructor|assumption].
  - destruct (IH _ H5) as (d2 & A & B). exists d2. split; [econstructor; eassumption|assumption].
Qed.
Lemma hist_split : forall a d b d', hist d (a ++ b) d' -> exists d1, hist d a d1 /\ hist d1 b d'.
Proof.
  induction a as [|e a IH]; intros d b d' H; cbn in H; [exists d; split; [constructor|assumption]|].
  inversion H; subst. destruct (IH _ _ _ H5) as (d2 & A & B). exists d2. split; [econstructor; eassumption|assumption].
Qed.
Lemma hist_inv : forall d tr d', hist d tr d' -> Inv d -> Inv d'.
Proof. induction 1; intros; auto. apply IHhist. apply H. Qed.
Lemma hist_ind_r : forall (P : list entry -> dv -> Prop) d0, P [] d0 ->
  (forall tr d e d', hist d0 tr d -> P tr d -> estep d e d' -> P (tr ++ [e]) d') ->
  forall tr d, hist d0 tr d -> P tr d.
Proof.
  intros P d0 H0 HS tr. induction tr as [|e tr IH] using rev_ind; intros d H.
  - inversion H; subst. exact H0.
  - apply hist_snoc in H as (d1 & A & B). exact (HS _ _ _ _ A (IH _ A) B).
Qed.
End Histories.
