(** What the calls of the connection API do in every driver: C31, C68. *)
From Coq Require Import String Ascii ZArith List Bool Arith Lia ZifyBool ZifyNat.
From Verif Require Import Base QueueSpec LineSpec SerialSpec Ring RingProofs LineRing LineRingProofs Serial SerialProofs
  SerStep TaskMacros CStr CStrProofs Dev DevProofs SimDev SimProofs Sym DrvStep DrvRun Sim7x00 Sim800 Espressif Cc1352.
Import ListNotations.
Local Open Scope nat_scope.

Section Any.
Context {SS RS X XO : Type}.
Variable D : driver SS RS X XO.
Notation dv := (dev SS RS X).

(** ** C31 *)

(** A call that leaves the serial port alone, seen with the interrupts around it. *)
Lemma step_pure : forall o sch (d : dv) out' d1 out ev d',
  d_call D o (during sch d) = Ok (out', d1) -> d_step D o sch d = Ok (out, ev, d') -> out = out' /\ d' = set_io (io d') d1.
Proof.
  intros o sch d out' d1 out ev d' E H. unfold d_step in H. fold (during sch d) in H. rewrite E in H. cbn [bind] in H.
  destruct (run_isrs (ser (io d1)) (concat (sched (io d1)))) as [[s e]|u]; cbn [bind] in H; [|discriminate].
  inversion H; subst; clear H. split; [reflexivity|]. destruct d1; reflexivity.
Qed.

(** write() accepts the first [min n room] bytes, and only when connected. *)
Theorem write_gate : forall sch (d : dv) data n out ev d', ring_ok (wbuf d) -> n <= length data ->
  d_step D (OpWrite data n) sch d = Ok (out, ev, d') ->
  let k := match cst d with csConnected => Nat.min n (rsize (wbuf d) - avail (wbuf d)) | _ => 0 end in
  out = DCount k /\ contents (wbuf d') = contents (wbuf d) ++ firstn k data /\ ring_ok (wbuf d') /\
  d' = set_wbuf (wbuf d') (set_io (io d') d).
Proof.
  intros sch d data n out ev d' Hok Hn H k.
  assert (Hs : forall A (r : ring A), ring_ok r -> ring_space r = rsize r - avail r) by reflexivity.
  destruct (ring_push_many_wf (wbuf d) data n (proj1 Hok) ltac:(lia)) as (r & Er & _ & _ & _ & Hc).
  destruct (Hc Hok) as [Hr Hcr]. rewrite (Hs _ _ Hok) in *.
  assert (E : d_call D (OpWrite data n) (during sch d) =
     Ok (DCount k, match cst d with csConnected => set_wbuf r (during sch d) | _ => during sch d end)).
  { cbn [d_call]. unfold ip_write. change (cst (during sch d)) with (cst d). change (wbuf (during sch d)) with (wbuf d).
    unfold k. destruct (cst d); try reflexivity. rewrite Er. reflexivity. }
  destruct (step_pure _ _ _ _ _ _ _ _ E H) as [-> ->]. split; [reflexivity|].
  unfold k. destruct (cst d); destruct d; cbn in *; rewrite ?app_nil_r; auto.
Qed.

(** spaceAvailable() is 0 unless connected, and tells what write() would accept. *)
Theorem space_gate : forall sch (d : dv) out ev d', d_step D OpSpaceAvailable sch d = Ok (out, ev, d') ->
  out = DCount (match cst d with csConnected => rsize (wbuf d) - avail (wbuf d) | _ => 0 end) /\ d' = set_io (io d') d.
Proof.
  intros sch d out ev d' H.
  destruct (step_pure OpSpaceAvailable sch d (DCount (ip_space_available (during sch d))) (during sch d) _ _ _ eq_refl H) as [-> ->].
  split; [|destruct d; reflexivity]. unfold ip_space_available, ring_space. destruct d; reflexivity.
Qed.

(** disconnect() is recorded exactly when the device is not idle. *)
Theorem disconnect_gate : forall sch (d : dv) out ev d', d_step D OpDisconnect sch d = Ok (out, ev, d') ->
  d' = set_io (io d') (if ip_is_idle d then d else on_disc true d).
Proof.
  intros sch d out ev d' H.
  destruct (step_pure OpDisconnect sch d DNone (ip_disconnect (during sch d)) _ _ _ eq_refl H) as [-> ->].
  unfold ip_disconnect. change (ip_is_idle (during sch d)) with (ip_is_idle d). destruct (ip_is_idle d); destruct d; reflexivity.
Qed.

(** read() delivers the oldest [n] bytes in any state. *)
Theorem read_any : forall sch (d : dv) n out ev d', ring_ok (rbuf d) -> d_step D (OpRead n) sch d = Ok (out, ev, d') ->
  out = DData (firstn n (contents (rbuf d))) (Nat.min n (avail (rbuf d))) /\ contents (rbuf d') = skipn n (contents (rbuf d)) /\
  d' = set_rbuf (rbuf d') (set_io (io d') d).
Proof.
  intros sch d n out ev d' Hok H. destruct (ring_pull_many_wf (rbuf d) n (proj1 Hok)) as (r & Er & _ & _ & _ & Hc & _).
  assert (E : d_call D (OpRead n) (during sch d) =
     Ok (DData (firstn n (contents (rbuf d))) (Nat.min n (avail (rbuf d))), set_rbuf r (during sch d))).
  { cbn [d_call]. unfold ip_read. change (rbuf (during sch d)) with (rbuf d). rewrite Er. reflexivity. }
  destruct (step_pure _ _ _ _ _ _ _ _ E H) as [-> ->]. destruct d; cbn in *; auto.
Qed.

(** The host and a port other than 0 are what every driver needs to connect. *)
Definition addressed (d : dv) : Prop := (exists h, host d = PStr h) /\ port d <> 0%Z.

Lemma ip_connect_gate : forall d : dv, fst (ip_connect d) = true <-> addressed d.
Proof.
  intros d. unfold ip_connect, addressed. destruct (host d) as [| |h]; cbn [fst].
  - split; [discriminate|intros [[h E] _]; discriminate].
  - split; [discriminate|intros [[h E] _]; discriminate].
  - destruct (Z.eqb_spec (port d) 0); cbn [fst]; split; intros; try tauto; try discriminate. split; eauto.
Qed.
Lemma ip_connect_effect : forall d : dv, snd (ip_connect d) = if fst (ip_connect d) then on_connect true d else d.
Proof. intros d. unfold ip_connect. destruct (host d); try reflexivity. destruct (port d =? 0)%Z; reflexivity. Qed.

(** connect() with the result [b] records the request if [b], and does nothing else. *)
Definition connects (need : dv -> Prop) : Prop := forall sch d out ev d', d_step D OpConnect sch d = Ok (out, ev, d') ->
  exists b, out = DBool b /\ (b = true <-> need d) /\ d' = set_io (io d') (if b then on_connect true d else d).

Lemma connects_if : forall need (f : dv -> bool),
  (forall d, drv_connect D d = Ok (f d, if f d then on_connect true d else d) \/ exists u, drv_connect D d = UB u) ->
  (forall sch d, f (during sch d) = f d) -> (forall d, f d = true <-> need d) -> connects need.
Proof.
  intros need f Hd Hf Hn sch d out ev d' H. destruct (Hd (during sch d)) as [E|[u E]].
  - assert (E' : d_call D OpConnect (during sch d) = Ok (DBool (f d), if f d then on_connect true (during sch d) else during sch d)).
    { cbn [d_call]. rewrite E, (Hf sch d). reflexivity. }
    destruct (step_pure _ _ _ _ _ _ _ _ E' H) as [-> ->]. exists (f d). split; [reflexivity|]. split; [apply Hn|].
    destruct (f d); destruct d; reflexivity.
  - unfold d_step in H. fold (during sch d) in H. cbn [d_call] in H. rewrite E in H. discriminate.
Qed.
End Any.

Definition sim_ready {SS RS} (d : dev SS RS simx) : Prop := addressed d /\ exists a, apn (ext d) = PStr a.

Lemma sim_connects : forall SS RS (d : dev SS RS simx),
  sim_connect d = (fst (sim_connect d), if fst (sim_connect d) then on_connect true d else d) /\
  (fst (sim_connect d) = true <-> sim_ready d).
Proof.
  intros SS RS d. unfold sim_connect, sim_ready. pose proof (ip_connect_gate d) as G. pose proof (ip_connect_effect d) as F.
  destruct (apn (ext d)) as [| |a] eqn:E.
  1,2: split; [reflexivity|]; split; [discriminate|]; intros [_ [a E']]; discriminate.
  split; [rewrite <- F; destruct (ip_connect d); reflexivity|]. rewrite G. split; [intros; split; eauto|tauto].
Qed.

Definition es_connects (d : dev essend esreply espx) : bool :=
  match ssid (ext d), passwd (ext d) with
  | PStr s, PStr _ => if clen s =? 0 then false else fst (ip_connect d)
  | _, _ => false
  end.

Ltac same_need d := unfold sim_connect, es_connects, ip_connect, during; destruct d; cbn;
  repeat match goal with |- context [match ?x with _ => _ end] => destruct x end; reflexivity.

(** ** C31 *)

Theorem C31_write : forall SS RS X XO (D : driver SS RS X XO) sch d data n out ev d', ring_ok (wbuf d) -> n <= length data ->
  d_step D (OpWrite data n) sch d = Ok (out, ev, d') ->
  let k := match cst d with csConnected => Nat.min n (rsize (wbuf d) - avail (wbuf d)) | _ => 0 end in
  out = DCount k /\ contents (wbuf d') = contents (wbuf d) ++ firstn k data /\ ring_ok (wbuf d') /\
  d' = set_wbuf (wbuf d') (set_io (io d') d).
Proof. exact @write_gate. Qed.
Print Assumptions C31_write.

Theorem C31_space : forall SS RS X XO (D : driver SS RS X XO) sch d out ev d', d_step D OpSpaceAvailable sch d = Ok (out, ev, d') ->
  out = DCount (match cst d with csConnected => rsize (wbuf d) - avail (wbuf d) | _ => 0 end) /\ d' = set_io (io d') d.
Proof. exact @space_gate. Qed.
Print Assumptions C31_space.

Theorem C31_read : forall SS RS X XO (D : driver SS RS X XO) sch d n out ev d', ring_ok (rbuf d) -> d_step D (OpRead n) sch d = Ok (out, ev, d') ->
  out = DData (firstn n (contents (rbuf d))) (Nat.min n (avail (rbuf d))) /\ contents (rbuf d') = skipn n (contents (rbuf d)) /\
  d' = set_rbuf (rbuf d') (set_io (io d') d).
Proof. exact @read_any. Qed.
Print Assumptions C31_read.

Theorem C31_disconnect : forall SS RS X XO (D : driver SS RS X XO) sch d out ev d', d_step D OpDisconnect sch d = Ok (out, ev, d') ->
  d' = set_io (io d') (if ip_is_idle d then d else on_disc true d).
Proof. exact @disconnect_gate. Qed.
Print Assumptions C31_disconnect.

Theorem C31_connect_sim7 : forall P, connects (s7_driver P) sim_ready.
Proof.
  intros P. apply connects_if with (f := fun d => fst (sim_connect d)).
  - intros d. left. cbn [drv_connect s7_driver]. rewrite (proj1 (sim_connects _ _ d)) at 1. reflexivity.
  - intros sch d. same_need d.
  - intros d. apply sim_connects.
Qed.
Print Assumptions C31_connect_sim7.

Theorem C31_connect_sim800 : forall P, connects (s8_driver P) sim_ready.
Proof.
  intros P. apply connects_if with (f := fun d => fst (sim_connect d)).
  - intros d. left. cbn [drv_connect s8_driver]. rewrite (proj1 (sim_connects _ _ d)) at 1. reflexivity.
  - intros sch d. same_need d.
  - intros d. apply sim_connects.
Qed.
Print Assumptions C31_connect_sim800.

Theorem C31_connect_cc1352 : forall P, connects (sc_driver P) addressed.
Proof.
  intros P. apply connects_if with (f := fun d => fst (ip_connect d)).
  - intros d. left. cbn [drv_connect sc_driver]. rewrite <- ip_connect_effect. destruct (ip_connect d); reflexivity.
  - intros sch d. same_need d.
  - apply ip_connect_gate.
Qed.
Print Assumptions C31_connect_cc1352.

(** The Espressif driver also wants a non-empty SSID and a password. *)
Definition es_ready (d : dev essend esreply espx) : Prop :=
  addressed d /\ (exists s, ssid (ext d) = PStr s /\ cbody s <> []) /\ exists p, passwd (ext d) = PStr p.
Theorem C31_connect_espressif : forall P, connects (se_driver P) es_ready.
Proof.
  intros P. apply connects_if with (f := es_connects).
  - intros d. cbn [drv_connect se_driver]. unfold se_connect, es_connects.
    destruct (ssid (ext d)) as [| |s]; [right; eauto|left; reflexivity|]. destruct (passwd (ext d)) as [| |p]; [right; eauto|left; reflexivity|].
    left. destruct (clen s =? 0); [reflexivity|]. rewrite <- ip_connect_effect. destruct (ip_connect d); reflexivity.
  - intros sch d. same_need d.
  - intros d. unfold es_connects, es_ready. pose proof (ip_connect_gate d) as G.
    destruct (ssid (ext d)) as [| |s].
    1,2: split; [discriminate|]; intros (_ & (s & E & _) & _); discriminate.
    destruct (passwd (ext d)) as [| |p].
    1,2: split; [discriminate|]; intros (_ & _ & (p & E)); discriminate.
    rewrite clen_cbody. destruct (Nat.eqb_spec (length (cbody s)) 0) as [E|E].
    + split; [discriminate|]. intros (_ & (s' & E1 & E2) & _). inversion E1; subst. destruct (cbody s'); [congruence|discriminate].
    + rewrite G. split; [|tauto]. intros Ha. split; [exact Ha|]. split; [|eauto]. exists s. split; [reflexivity|].
      intro Hn. rewrite Hn in E. apply E. reflexivity.
Qed.
Print Assumptions C31_connect_espressif.

(** Before setSSID() and setPassword() were called the same call reads
    pointers that were never initialised. *)
Theorem C31_espressif_unset_refuted : forall P s op rb wb lb mac t d sch, serial_wf s ->
  se_new s op rb wb lb mac t = Ok d -> d_step (se_driver P) OpConnect sch d = UB Uninitialised.
Proof.
  intros P s op rb wb lb mac t d sch Hs E. unfold se_new, se_reset_states in E.
  match type of E with at_reset_states _ _ _ ?x = _ =>
    pose proof (wp_reset_states False SENotConnected REOk 99%Z x (fun d => ssid (ext d) = PUninit)
      Hs ltac:(intros; reflexivity)) as W end.
  rewrite E in W. cbn [wp] in W. unfold d_step. cbn [d_call drv_connect se_driver]. unfold se_connect.
  cbn [set_io ext]. rewrite W. reflexivity.
Qed.
Print Assumptions C31_espressif_unset_refuted.

(** ** C68 *)

(** resetStates() leaves the object as its constructor would leave a new one
    with the same memory, host, port and APN. *)
Definition as_new {SS RS X} (f d d' : dev SS RS X) (x : X) : Prop :=
  d' = set_tsk (tsk d) (set_ext x (set_port (port d) (set_host (host d) (set_io (io d') f)))).

Lemma reset_step : forall SS RS X XO (D : driver SS RS X XO) sch d out ev d' (Q : _ -> Prop), serial_wf (ser (io d)) ->
  wp False (drv_reset D (during sch d)) Q -> d_step D OpResetStates sch d = Ok (out, ev, d') ->
  exists d1, Q d1 /\ d' = set_io (io d') d1 /\ (sch = [] -> sched (io d1) = [] -> ser (io d') = ser (io d1)).
Proof.
  intros SS RS X XO D sch d out ev d' Q Hs W H. unfold d_step in H. fold (during sch d) in H. cbn [d_call] in H.
  destruct (drv_reset D (during sch d)) as [d1|u]; cbn [wp bind] in *; [|contradiction].
  destruct (run_isrs (ser (io d1)) (concat (sched (io d1)))) as [[s e]|u] eqn:Er; cbn [bind] in H; [|discriminate].
  inversion H; subst. exists d1. split; [exact W|]. split; [destruct d1; reflexivity|]. intros _ E. rewrite E in Er. cbn in Er.
  inversion Er; reflexivity.
Qed.

Lemma flush_new : forall A (r : ring A), ring_wf r -> ring_flush r = ring_new (mem r).
Proof. intros A r H. unfold ring_flush, ring_new. f_equal. destruct H. intuition. Qed.

Lemma sstep_still : forall y y' ev, sched y = [] -> sstep y y' ev -> sched y' = [].
Proof. intros y y' ev E H. destruct H as (_ & _ & _ & _ & _ & _ & Hs). auto. Qed.

(** The state after resetStates(), and what is left at the serial port. *)
Definition reset_to {SS RS X} (new : serial -> res (dev SS RS X)) (d d' : dev SS RS X) (sch : list (list isr)) (x : X) : Prop :=
  (exists s f, serial_wf s /\ new s = Ok f /\ as_new f d d' x) /\
  (sch = [] -> lring_is (srx (ser (io d'))) []).

Lemma sim_reset_new : forall SS RS (s0 : SS) (r0 : RS) XO (D : driver SS RS simx XO) mx sch d out ev d',
  drv_reset D = sim_reset_states s0 r0 -> serial_wf (ser (io d)) -> ring_wf (rbuf d) -> ring_wf (wbuf d) ->
  length (idbuf (ext d)) = 24 -> maxrx (ext d) = mx ->
  d_step D OpResetStates sch d = Ok (out, ev, d') ->
  reset_to (fun s => sim_reset_states s0 r0 (d_raw s (isopen d) (mem (rbuf d)) (mem (wbuf d)) (lbuf d) (typ d) s0 r0
                       (mkSimx PNull (ip (ext d)) (idbuf (ext d)) mx)))
    d d' sch (mkSimx (apn (ext d)) (ip (ext d)) (list_set (list_set (idbuf (ext d)) 0 NUL) 1 (id_code idNone)) mx).
Proof.
  intros SS RS s0 r0 XO D mx sch d out ev d' HD Hs Hr Hw Hid Hmx H.
  set (s := ser (io d)) in *.
  set (raw := d_raw s (isopen d) (mem (rbuf d)) (mem (wbuf d)) (lbuf d) (typ d) s0 r0 (mkSimx PNull (ip (ext d)) (idbuf (ext d)) mx)).
  pose proof (reset_step _ _ _ _ D sch d out ev d' (fun d1 => exists y ev, sstep (io (during sch d)) y ev /\
     lring_is (srx (ser y)) [] /\ d1 = mkDev y (isopen d) (ring_flush (rbuf d)) (ring_flush (wbuf d)) (typ d) (host d) (port d) flags_line_read
          csNotConnected None (lbuf d) 0 s0 r0 0%Z 0%Z 0%Z 99%Z (tsk d)
          (set_idbuf (list_set (list_set (idbuf (ext d)) 0 NUL) 1 (id_code idNone)) (ext d))) Hs) as R.
  destruct R as (d1 & (y & ev1 & Hst & Hl & E1) & E2 & E3).
  { rewrite HD. apply wp_sim_reset_states; [exact Hs|exact Hid|]. intros y ev1 A1 A2 A3 A4 A5 A6 A7 A8. exists y, ev1. auto. }
  { exact H. }
  pose proof (wp_sim_reset_states False s0 r0 raw (fun f => exists y, f =
    mkDev y (isopen d) (ring_flush (ring_new (mem (rbuf d)))) (ring_flush (ring_new (mem (wbuf d)))) (typ d) PNull 0%Z flags_line_read
          csNotConnected None (lbuf d) 0 s0 r0 0%Z 0%Z 0%Z 99%Z (task_new 0%Z)
          (mkSimx PNull (ip (ext d)) (list_set (list_set (idbuf (ext d)) 0 NUL) 1 (id_code idNone)) mx)) Hs Hid
    ltac:(intros y0 ev0; intros; exists y0; reflexivity)) as F.
  destruct (sim_reset_states s0 r0 raw) as [f|u] eqn:Ef; cbn [wp] in F; [|contradiction].
  destruct F as [yf Ff]. split.
  - exists s, f. split; [exact Hs|]. split; [exact Ef|]. unfold as_new. rewrite E2, E1, Ff, !flush_new by assumption.
    unfold set_idbuf. rewrite Hmx. reflexivity.
  - intros ->. rewrite E3; [rewrite E1; exact Hl|reflexivity|]. rewrite E1. refine (sstep_still (io (during [] d)) y ev1 _ Hst); reflexivity.
Qed.

(** A driver that waits for a reply and has been asked for a disconnect. *)
Definition c68_serial : serial := mkSerial (lring_new (repeat NUL 64)) (lring_new (repeat NUL 64)).
Definition c68_fresh := s7_new c68_serial true (repeat NUL 8) (repeat NUL 8) (repeat NUL 61) (repeat NUL 16) (repeat NUL 24) 1%Z.
Definition c68_calls : list (dop simop * list (list isr)) :=
  [(OpConnect, []); (OpX (SetApn (PStr (bs "apn"))), []); (OpSetHostPort (PStr (bs "host")) 80%Z 1%Z, []); (OpDisconnect, []); (OpConnect, []);
   (OpRun true, []); (OpRun true, []); (OpDisconnect, []); (OpWrite (bs "x") 1, [])].
Definition c68_seen (h : list (dop simop * list (list isr))) : res (list dobs * option bytes * bool) :=
  let* d := c68_fresh in let* (d, outs) := d_run (s7_driver (mkPlat true true)) d h in Ok (map fst outs, wait d, fDisc (fl d)).
Example C31_C68_example :
  c68_seen c68_calls =
    Ok ([DBool false; DNone; DNone; DNone; DBool true; DNone; DNone; DNone; DCount 0], Some (bs "OK"), true) /\
  c68_seen (c68_calls ++ [(OpResetStates, []); (OpIsIdle, [])]) =
    Ok ([DBool false; DNone; DNone; DNone; DBool true; DNone; DNone; DNone; DCount 0; DNone; DBool true], None, false).
Proof. split; vm_compute; reflexivity. Qed.

Theorem C68_sim7 : forall P sch d out ev d', serial_wf (ser (io d)) -> ring_wf (rbuf d) -> ring_wf (wbuf d) ->
  length (idbuf (ext d)) = 24 -> maxrx (ext d) = 1500%Z -> d_step (s7_driver P) OpResetStates sch d = Ok (out, ev, d') ->
  reset_to (fun s => s7_new s (isopen d) (mem (rbuf d)) (mem (wbuf d)) (lbuf d) (ip (ext d)) (idbuf (ext d)) (typ d)) d d' sch
    (mkSimx (apn (ext d)) (ip (ext d)) (list_set (list_set (idbuf (ext d)) 0 NUL) 1 (id_code idNone)) 1500%Z).
Proof. intros P sch d out ev d' Hs Hr Hw Hid Hmx H. exact (sim_reset_new _ _ S7NotConnected R7Ok _ (s7_driver P) _ sch d out ev d' eq_refl Hs Hr Hw Hid Hmx H). Qed.
Print Assumptions C68_sim7.

Theorem C68_sim800 : forall P sch d out ev d', serial_wf (ser (io d)) -> ring_wf (rbuf d) -> ring_wf (wbuf d) ->
  length (idbuf (ext d)) = 24 -> maxrx (ext d) = 1460%Z -> d_step (s8_driver P) OpResetStates sch d = Ok (out, ev, d') ->
  reset_to (fun s => s8_new s (isopen d) (mem (rbuf d)) (mem (wbuf d)) (lbuf d) (ip (ext d)) (idbuf (ext d)) (typ d)) d d' sch
    (mkSimx (apn (ext d)) (ip (ext d)) (list_set (list_set (idbuf (ext d)) 0 NUL) 1 (id_code idNone)) 1460%Z).
Proof. intros P sch d out ev d' Hs Hr Hw Hid Hmx H. exact (sim_reset_new _ _ S8NotConnected R8Ok _ (s8_driver P) _ sch d out ev d' eq_refl Hs Hr Hw Hid Hmx H). Qed.
Print Assumptions C68_sim800.

Lemma at_reset_new : forall SS RS X (s0 : SS) (r0 : RS) rs XO (D : driver SS RS X XO) x0 sch d out ev d',
  drv_reset D = at_reset_states s0 r0 rs -> serial_wf (ser (io d)) -> ring_wf (rbuf d) -> ring_wf (wbuf d) ->
  d_step D OpResetStates sch d = Ok (out, ev, d') ->
  reset_to (fun s => at_reset_states s0 r0 rs (d_raw s (isopen d) (mem (rbuf d)) (mem (wbuf d)) (lbuf d) (typ d) s0 r0 x0))
    d d' sch (ext d).
Proof.
  intros SS RS X s0 r0 rs XO D x0 sch d out ev d' HD Hs Hr Hw H.
  set (s := ser (io d)) in *.
  set (raw := d_raw s (isopen d) (mem (rbuf d)) (mem (wbuf d)) (lbuf d) (typ d) s0 r0 x0).
  pose proof (reset_step _ _ _ _ D sch d out ev d' (fun d1 => exists y ev, sstep (io (during sch d)) y ev /\
     lring_is (srx (ser y)) [] /\ d1 = mkDev y (isopen d) (ring_flush (rbuf d)) (ring_flush (wbuf d)) (typ d) (host d) (port d) flags_line_read
          csNotConnected None (lbuf d) 0 s0 r0 0%Z 0%Z 0%Z rs (tsk d) (ext d)) Hs) as R.
  destruct R as (d1 & (y & ev1 & Hst & Hl & E1) & E2 & E3).
  { rewrite HD. apply wp_reset_states; [exact Hs|]. intros y ev1 A1 A2 A3 A4 A5 A6 A7 A8. exists y, ev1. auto. }
  { exact H. }
  pose proof (wp_reset_states False s0 r0 rs raw (fun f => exists y, f =
    mkDev y (isopen d) (ring_flush (ring_new (mem (rbuf d)))) (ring_flush (ring_new (mem (wbuf d)))) (typ d) PNull 0%Z flags_line_read
          csNotConnected None (lbuf d) 0 s0 r0 0%Z 0%Z 0%Z rs (task_new 0%Z) x0) Hs
    ltac:(intros y0 ev0; intros; exists y0; reflexivity)) as F.
  destruct (at_reset_states s0 r0 rs raw) as [f|u] eqn:Ef; cbn [wp] in F; [|contradiction].
  destruct F as [yf Ff]. split.
  - exists s, f. split; [exact Hs|]. split; [exact Ef|]. unfold as_new. rewrite E2, E1, Ff, !flush_new by assumption. reflexivity.
  - intros ->. rewrite E3; [rewrite E1; exact Hl|reflexivity|]. rewrite E1. refine (sstep_still (io (during [] d)) y ev1 _ Hst); reflexivity.
Qed.

(** In the two other drivers the buffer for the MAC address, and a request
    for it stored there, stay as they were. *)
Theorem C68_espressif : forall P sch d out ev d' mac, serial_wf (ser (io d)) -> ring_wf (rbuf d) -> ring_wf (wbuf d) ->
  d_step (se_driver P) OpResetStates sch d = Ok (out, ev, d') ->
  reset_to (fun s => se_new s (isopen d) (mem (rbuf d)) (mem (wbuf d)) (lbuf d) mac (typ d)) d d' sch (ext d).
Proof. intros P sch d out ev d' mac Hs Hr Hw H. exact (at_reset_new _ _ _ SENotConnected REOk 99%Z _ (se_driver P) (mkEspx PUninit PUninit mac) sch d out ev d' eq_refl Hs Hr Hw H). Qed.
Print Assumptions C68_espressif.

Theorem C68_cc1352 : forall P sch d out ev d' mac, serial_wf (ser (io d)) -> ring_wf (rbuf d) -> ring_wf (wbuf d) ->
  d_step (sc_driver P) OpResetStates sch d = Ok (out, ev, d') ->
  reset_to (fun s => sc_new s (isopen d) (mem (rbuf d)) (mem (wbuf d)) (lbuf d) mac (typ d)) d d' sch (ext d).
Proof. intros P sch d out ev d' mac Hs Hr Hw H. exact (at_reset_new _ _ _ SCNotConnected RCOk 255%Z _ (sc_driver P) (mkCcx mac) sch d out ev d' eq_refl Hs Hr Hw H). Qed.
Print Assumptions C68_cc1352.

(** So a MAC request made before resetStates() is still sent after it. *)
Definition c68_mac (P : plat) : res (list bytes) :=
  let* d := se_new c68_serial true (repeat NUL 8) (repeat NUL 8) (repeat NUL 61) (repeat NUL 18) 1%Z in
  let* (_, outs) := d_run (se_driver P) d [(OpX RequestMac, []); (OpResetStates, []); (OpRun true, [])] in
  Ok (map (fun o => put (snd o)) outs).
Theorem C68_pending_mac_request_refuted :
  c68_mac (mkPlat false true) = Ok [[]; []; bs "AT+CIPSTAMAC?" ++ [CR; LF]].
Proof. vm_compute. reflexivity. Qed.
Print Assumptions C68_pending_mac_request_refuted.
