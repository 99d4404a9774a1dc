(** What holds in every history of calls to a driver meeting the contract. *)
From Coq Require Import String Ascii ZArith List Bool Arith Lia ZifyBool ZifyNat.
From Verif Require Import Base QueueSpec LineSpec SerialSpec Ring RingProofs LineRing LineRingProofs Serial SerialProofs
  SerStep TaskMacros CStr CStrProofs Dev DevProofs SimDev SimProofs Sym DrvStep DrvRun.
Import ListNotations.
Local Open Scope nat_scope.
Ltac Zify.zify_post_hook ::= Z.div_mod_to_equations.

(** ** Readings of a history *)

(** The bytes read in line mode, and the lines they completed. *)
Definition act_line_bytes (a : act) : bytes :=
  match a with aMore tk | aLine tk _ => tk | aDiscard tk _ => tk | _ => [] end.
Definition act_lines (a : act) : list bytes := match a with aLine _ L => [L] | _ => [] end.
(** The application data sent and received. *)
Definition act_sent (a : act) : bytes := match a with aPayload q => q | _ => [] end.
Definition act_received (a : act) : bytes := match a with aReceive tk => tk | _ => [] end.
Definition all {A} (f : act -> list A) (l : list act) : list A := concat (map f l).

Lemma all_app : forall A (f : act -> list A) a b, all f (a ++ b) = all f a ++ all f b.
Proof. intros. unfold all. rewrite map_app, concat_app. reflexivity. Qed.
Lemma all_one : forall A (f : act -> list A) a, all f [a] = f a.
Proof. intros. unfold all. cbn. apply app_nil_r. Qed.
Lemma all_two : forall A (f : act -> list A) a b, all f [a; b] = f a ++ f b.
Proof. intros. unfold all. cbn. rewrite app_nil_r. reflexivity. Qed.

(** A command may be sent if the last one has been answered by a line; [rst]:
    does the reset send a command?  [None]: this was violated. *)
Definition pace (rs : bool) (o : option bool) (a : act) : option bool :=
  match o, a with
  | None, _ => None
  | Some _, aLine _ _ => Some false
  | Some _, aReset _ => Some rs
  | Some true, (aCommand _ _ | aAnnounce _ _ | aPayload _) => None
  | Some false, (aCommand _ _ | aAnnounce _ _ | aPayload _) => Some true
  | _, _ => o
  end.

(** The length announced last. *)
Definition announce (o : option Z) (a : act) : option Z :=
  match a with aAnnounce n _ => Some n | aReset _ => None | _ => o end.

Section Readings.
Context {XO : Type}.
Notation ent := (@entry XO).

Definition is_reset (o : dop XO) : bool := match o with OpResetStates => true | _ => false end.

Definition line_log (acc : bytes * list bytes) (e : ent) : bytes * list bytes :=
  if is_reset (e_op e) then ([], [])
  else (fst acc ++ all act_line_bytes (e_acts e), snd acc ++ all act_lines (e_acts e)).

(** The bytes write() accepted. *)
Definition accepted (e : ent) : bytes :=
  match e_op e, e_out e with OpWrite data _, DCount k => firstn k data | _, _ => [] end.
(** The bytes read() delivered. *)
Definition delivered (e : ent) : bytes := match e_op e, e_out e with OpRead _, DData l _ => l | _, _ => [] end.

Definition write_log (acc : bytes * bytes) (e : ent) : bytes * bytes :=
  if is_reset (e_op e) then ([], []) else (fst acc ++ accepted e, snd acc ++ all act_sent (e_acts e)).
Definition read_log (acc : bytes * bytes) (e : ent) : bytes * bytes :=
  if is_reset (e_op e) then ([], []) else (fst acc ++ all act_received (e_acts e), snd acc ++ delivered e).
Definition pace_log (rs : bool) (o : option bool) (e : ent) : option bool :=
  if is_reset (e_op e) then match o with None => None | _ => Some false end else fold_left (pace rs) (e_acts e) o.
Definition announce_log (o : option Z) (e : ent) : option Z :=
  if is_reset (e_op e) then None else fold_left announce (e_acts e) o.
End Readings.

Section Hist.
Context {SS RS X XO : Type}.
Notation dv := (dev SS RS X).
Variable D : driver SS RS X XO.
Variable Sh : shape SS RS X.
Variable Inv : dv -> Prop.
Variable Bad : dop XO -> dv -> Prop.
Variable goodx : XO -> Prop.
Hypothesis HC : contract D Sh Inv Bad goodx.
Notation estepS := (estep D Sh Inv goodx).
Notation histS := (hist D Sh Inv goodx).

(** A predicate of the state and of what happened so far, through the parts of
    a run(). *)
Lemma rrun_ind' : forall (A : Type) (K : A -> dv -> Prop) (f : A -> act -> A),
  (forall a d, K a d -> K a (set_isopen true d)) ->
  (forall a d, K a d -> K a (set_sst (sh_error Sh) d)) ->
  (forall a d q d', K a d -> fReset (fl d) = true -> resets Sh d q d' -> sh_rext Sh d d' -> K (f a (aReset q)) d') ->
  (forall a d r d' b, K a d -> ilab (sh_insend Sh) (sh_whole Sh) (sh_part Sh) (sh_clears Sh) d r d' b -> sh_iext Sh d r b d' -> K (f a b) d') ->
  forall oo d l d', rrun Sh oo d l d' ->
  (forall a dm b, K a dm -> olab (sh_ok Sh) (sh_says Sh) (sh_tail Sh) (sh_insend Sh) (sh_ch Sh) dm d' b ->
     sh_oext Sh dm b d' -> In b l -> (exists ev, sstep (io d) (io dm) ev) -> K (f a b) d') ->
  serial_wf (ser (io d)) ->
  forall a, K a d -> K (fold_left f l a) d'.
Proof.
  intros A K f H1 H2 H3 H4 oo d l d' Hr H5 Hw a Ha.
  assert (HP : forall l d1, prerun Sh d l d1 -> K (fold_left f l a) d1).
  { intros l0 d1 [(_ & -> & ->)|(Hf & q & -> & Hq & Hx)]; cbn [fold_left]; eauto. }
  destruct Hr as [| | |l d1 _ _ HP1|l d1 b d2 _ HP1 HI HX|l d1 b d2 c d3 _ HP1 HI HX HO HOX]; cbn [fold_left]; auto.
  - rewrite fold_left_app. cbn [fold_left]. eauto.
  - rewrite fold_left_app. cbn [fold_left]. eapply (H5 _ d2); eauto; [apply in_or_app; right; right; left; reflexivity|].
    destruct (prerun_io _ _ _ _ Hw HP1) as (ev & E1 & _). destruct (ilab_io _ _ _ _ _ HI) as (ev2 & E2 & _).
    exists (ev ++ ev2). exact (sstep_trans _ _ _ _ _ E1 E2).
Qed.

(** The same through a history; [h] says what the calls other than run() do,
    [Q] is assumed of every call. *)
Definition reading {A} (f : A -> act -> A) (h : A -> @entry XO -> A) (a : A) (e : @entry XO) : A :=
  match e_op e with OpRun _ => fold_left f (e_acts e) a | _ => h a e end.

Lemma clean_mid : forall a b c, clean (a ++ b ++ c) -> clean b.
Proof. intros a b c H. apply clean_app in H as [_ H]. apply clean_app in H. apply H. Qed.

Lemma step_ghost : forall (A : Type) (K : A -> dv -> Prop) (f : A -> act -> A) h (Q : @entry XO -> Prop),
  (forall a y d, K a d -> K a (set_io y d)) ->
  (forall a d, K a d -> K a (set_isopen true d)) ->
  (forall a d, K a d -> K a (set_sst (sh_error Sh) d)) ->
  (forall a d q d', K a d -> fReset (fl d) = true -> resets Sh d q d' -> sh_rext Sh d d' -> K (f a (aReset q)) d') ->
  (forall a d r d' b, K a d -> ilab (sh_insend Sh) (sh_whole Sh) (sh_part Sh) (sh_clears Sh) d r d' b -> sh_iext Sh d r b d' -> K (f a b) d') ->
  (forall e a d d' b, Q e -> K a d -> olab (sh_ok Sh) (sh_says Sh) (sh_tail Sh) (sh_insend Sh) (sh_ch Sh) d d' b ->
     sh_oext Sh d b d' -> In b (e_acts e) -> (e_sch e = [] -> sched (io d) = []) ->
     (forall ev, sstep (io d) (io d') ev -> clean (e_ev e) -> clean ev) -> K (f a b) d') ->
  (forall e a d d', Q e -> goodop goodx (e_op e) -> Inv d -> K a d -> callrel D Sh (e_op e) d (e_out e) (e_acts e) d' -> (forall oo, e_op e <> OpRun oo) -> K (h a e) d') ->
  forall d e d', estepS d e d' -> Q e -> forall a, K a d -> K (reading f h a e) d'.
Proof.
  intros A K f h Q H0 H1 H2 H3 H4 H5 H6 d e d' (I1 & I2 & Hg & Hs & Hsc & Hwi & Hio & Hcl & d1 & Hc & Hd' & (ev2 & Hlog) & _) HQ a Ha.
  rewrite Hd'. apply H0.
  assert (Hdu : Inv (during (e_sch e) d)) by (apply (during_inv D Sh Inv Bad goodx HC); assumption).
  assert (Had : K a (during (e_sch e) d)) by (apply H0; assumption).
  unfold reading. destruct (e_op e) eqn:Eo; cbn [goodop] in Hg;
    try (apply (H6 e a (during (e_sch e) d)); auto; rewrite Eo; [exact Hg|exact Hc|discriminate]).
  cbn [callrel] in Hc. destruct Hc as [Hr _].
  assert (Hw : serial_wf (ser (io (during (e_sch e) d)))) by (apply (c_wf _ _ _ _ _ HC); assumption).
  apply (rrun_ind' A K f H1 H2 H3 H4 open_ok _ _ _ Hr); auto.
  intros a0 dm b Ka Ho Hox Hb (ev & Hev). apply (H5 e a0 dm d1 b); auto.
  - intro E. destruct Hev as (_ & _ & _ & _ & _ & _ & Hev). apply Hev. rewrite E. destruct d; reflexivity.
  - intros ev' Hev' Hce. rewrite Hlog in Hce. rewrite (sstep_log _ _ _ Hev'), <- app_assoc in Hce. exact (clean_mid _ _ _ Hce).
Qed.

Lemma hist_ghost : forall (A : Type) (K : A -> dv -> Prop) (f : A -> act -> A) h (Q : @entry XO -> Prop),
  (forall a y d, K a d -> K a (set_io y d)) ->
  (forall a d, K a d -> K a (set_isopen true d)) ->
  (forall a d, K a d -> K a (set_sst (sh_error Sh) d)) ->
  (forall a d q d', K a d -> fReset (fl d) = true -> resets Sh d q d' -> sh_rext Sh d d' -> K (f a (aReset q)) d') ->
  (forall a d r d' b, K a d -> ilab (sh_insend Sh) (sh_whole Sh) (sh_part Sh) (sh_clears Sh) d r d' b -> sh_iext Sh d r b d' -> K (f a b) d') ->
  (forall e a d d' b, Q e -> K a d -> olab (sh_ok Sh) (sh_says Sh) (sh_tail Sh) (sh_insend Sh) (sh_ch Sh) d d' b ->
     sh_oext Sh d b d' -> In b (e_acts e) -> (e_sch e = [] -> sched (io d) = []) ->
     (forall ev, sstep (io d) (io d') ev -> clean (e_ev e) -> clean ev) -> K (f a b) d') ->
  (forall e a d d', Q e -> goodop goodx (e_op e) -> Inv d -> K a d -> callrel D Sh (e_op e) d (e_out e) (e_acts e) d' -> (forall oo, e_op e <> OpRun oo) -> K (h a e) d') ->
  forall d tr d', histS d tr d' -> Forall Q tr -> forall a, K a d -> K (fold_left (reading f h) tr a) d'.
Proof.
  intros A K f h Q H0 H1 H2 H3 H4 H5 H6 d tr d' H. induction H as [|d e d1 tr d2 Hs Hh IH]; intros HQ a Ha; [exact Ha|].
  inversion HQ; subst. cbn [fold_left]. apply IH; [assumption|]. eapply step_ghost; eauto.
Qed.

(** The calls other than run(), spelled out. *)
Definition call_flags (e : @entry XO) (d d' : dv) : Prop :=
  (fReset (fl d') = fReset (fl d) /\ fData (fl d') = fData (fl d) /\ fIp (fl d') = fIp (fl d) /\ fLine (fl d') = fLine (fl d)) /\
  (fDisc (fl d') = fDisc (fl d) \/ e_op e = OpDisconnect /\ fDisc (fl d') = true /\ ip_is_idle d = false) /\
  (fConnect (fl d') = fConnect (fl d) \/ e_op e = OpConnect /\ e_out e = DBool true /\ fConnect (fl d') = true) /\
  (fLock (fl d') = fLock (fl d) \/ exists x, e_op e = OpX x) /\
  (ext d' = ext d \/ exists x, e_op e = OpX x) /\
  (rssi d' = rssi d \/ e_op e = OpRequestRSSI /\ rssi d' = INT16_MAX) /\
  (typ d' = typ d /\ host d' = host d /\ port d' = port d \/ exists h p t, e_op e = OpSetHostPort h p t) /\
  (isopen d' = isopen d \/ e_op e = OpPortClosed /\ isopen d' = false).
Definition ring_delta (e : @entry XO) (d d' : dv) : Prop :=
  (is_reset (e_op e) = false /\ keep_line d d' /\ toWrite d' = toWrite d /\ toRead d' = toRead d /\ toReceive d' = toReceive d /\
   wait d' = wait d /\ sst d' = sst d /\ rst d' = rst d /\ cst d' = cst d /\ ring_wf (wbuf d') /\ ring_wf (rbuf d') /\
   rsize (wbuf d') = rsize (wbuf d) /\ rsize (rbuf d') = rsize (rbuf d) /\
   (ring_ok (wbuf d) -> ring_ok (wbuf d') /\ contents (wbuf d') = contents (wbuf d) ++ accepted e) /\
   (ring_ok (rbuf d) -> ring_ok (rbuf d') /\ contents (rbuf d) = delivered e ++ contents (rbuf d')) /\
   call_flags e d d') \/
  (e_op e = OpResetStates /\ resetstates Sh d d').

Ltac cflags := unfold call_flags; cbn [e_op e_out]; splits; first
  [ reflexivity | (left; reflexivity) | (left; splits; reflexivity)
  | (right; split; [reflexivity|first [reflexivity | split; first [reflexivity | assumption]]])
  | (right; eexists; reflexivity) | (right; do 3 eexists; reflexivity) ].

Lemma call_delta : forall e d d', Inv d -> goodop goodx (e_op e) -> callrel D Sh (e_op e) d (e_out e) (e_acts e) d' ->
  (forall oo, e_op e <> OpRun oo) -> e_acts e = [] /\ ring_delta e d d'.
Proof.
  intros [o sch out ev l] d d' HI Hg Hc Hn. cbn [e_op e_out e_acts] in *.
  pose proof (c_wf _ _ _ _ _ HC d HI) as (Hw & Hrw & Hrs & Hww & Hws).
  assert (Same : forall d1, l = [] /\ Ok (out, d1) = Ok (out, d') -> keep_line d d1 -> toWrite d1 = toWrite d -> toRead d1 = toRead d ->
     toReceive d1 = toReceive d -> wait d1 = wait d -> sst d1 = sst d -> rst d1 = rst d -> cst d1 = cst d -> rbuf d1 = rbuf d -> wbuf d1 = wbuf d ->
     is_reset o = false -> call_flags (mkEntry o sch out ev l) d d1 -> accepted (mkEntry o sch out ev l) = [] -> delivered (mkEntry o sch out ev l) = [] ->
     l = [] /\ ring_delta (mkEntry o sch out ev l) d d').
  { intros d1 [-> E]. inversion E; subst d1. intros K1 K2 K3 K4 K5 K6 K7 K8 K9 K10 K11 KF K12 K13.
    split; [reflexivity|]. left. rewrite K9, K10, K12, K13, app_nil_r. cbn [app e_op]. splits; auto; intro; split; auto. }
  destruct o as [|oo| |h p t| | | | | | |n|data n| | |s|n| | |x]; cbn [goodop callrel d_call] in *.
  - destruct Hc as [-> E]; inversion E; subst. eapply Same; [split; reflexivity|split; reflexivity|reflexivity|reflexivity|reflexivity|reflexivity|reflexivity|reflexivity|reflexivity|reflexivity|reflexivity|reflexivity|cflags|reflexivity|reflexivity].
  - exfalso. exact (Hn oo eq_refl).
  - destruct Hc as [-> E]; inversion E; subst. eapply Same; [split; reflexivity|split; reflexivity|reflexivity|reflexivity|reflexivity|reflexivity|reflexivity|reflexivity|reflexivity|reflexivity|reflexivity|reflexivity|cflags|reflexivity|reflexivity].
  - destruct Hc as [-> E]; inversion E; subst. eapply Same; [split; reflexivity|split; reflexivity|reflexivity|reflexivity|reflexivity|reflexivity|reflexivity|reflexivity|reflexivity|reflexivity|reflexivity|reflexivity|cflags|reflexivity|reflexivity].
  - destruct Hc as [-> E]. pose proof (c_connect _ _ _ _ _ HC d HI) as H. destruct (drv_connect D d) as [[b d1]|u]; [|discriminate].
    cbn [wp bind fst snd] in *. inversion E; subst. destruct H as [_ [[-> ->]|[-> ->]]]; (eapply Same; [split; reflexivity|split; reflexivity|reflexivity|reflexivity|reflexivity|reflexivity|reflexivity|reflexivity|reflexivity|reflexivity|reflexivity|reflexivity|cflags|reflexivity|reflexivity]).
  - destruct Hc as [-> E]; inversion E; subst. unfold ip_disconnect in *. destruct (ip_is_idle d) eqn:Ei; (eapply Same; [split; reflexivity|split; reflexivity|reflexivity|reflexivity|reflexivity|reflexivity|reflexivity|reflexivity|reflexivity|reflexivity|reflexivity|reflexivity|cflags|reflexivity|reflexivity]).
  - destruct Hc as [-> E]; inversion E; subst. eapply Same; [split; reflexivity|split; reflexivity|reflexivity|reflexivity|reflexivity|reflexivity|reflexivity|reflexivity|reflexivity|reflexivity|reflexivity|reflexivity|cflags|reflexivity|reflexivity].
  - destruct Hc as [-> E]; inversion E; subst. eapply Same; [split; reflexivity|split; reflexivity|reflexivity|reflexivity|reflexivity|reflexivity|reflexivity|reflexivity|reflexivity|reflexivity|reflexivity|reflexivity|cflags|reflexivity|reflexivity].
  - destruct Hc as [-> E]; inversion E; subst. eapply Same; [split; reflexivity|split; reflexivity|reflexivity|reflexivity|reflexivity|reflexivity|reflexivity|reflexivity|reflexivity|reflexivity|reflexivity|reflexivity|cflags|reflexivity|reflexivity].
  - destruct Hc as [-> E]; inversion E; subst. eapply Same; [split; reflexivity|split; reflexivity|reflexivity|reflexivity|reflexivity|reflexivity|reflexivity|reflexivity|reflexivity|reflexivity|reflexivity|reflexivity|cflags|reflexivity|reflexivity].
  - destruct Hc as [-> E]. destruct (ring_pull_many_wf (rbuf d) n Hrw) as (r & E1 & W & Z & _ & C & O).
    unfold ip_read in E. rewrite E1 in E. cbn [bind] in E. inversion E; subst. split; [reflexivity|]. left.
    unfold accepted, delivered. cbn [e_op e_out]. rewrite app_nil_r.
    split; [reflexivity|]. splits; auto; try reflexivity.
    + split; reflexivity.
    + intro Hok. split; [apply O; assumption|]. change (contents (rbuf (set_rbuf r d))) with (contents r). rewrite C, firstn_skipn. reflexivity.
    + cflags.
  - destruct Hc as [-> E]. unfold ip_write in E. destruct (cst d) eqn:Ec.
    all: try (cbn [bind] in E; inversion E; subst; (eapply Same; [split; reflexivity|split; reflexivity|reflexivity|reflexivity|reflexivity|reflexivity|reflexivity|reflexivity|assumption|reflexivity|reflexivity|reflexivity|cflags|reflexivity|reflexivity])).
    destruct (ring_push_many_wf (wbuf d) data n Hww ltac:(lia)) as (r & E1 & W & Z & _ & O).
    rewrite E1 in E. cbn [bind] in E. inversion E; subst. split; [reflexivity|]. left.
    unfold accepted, delivered. cbn [e_op e_out app].
    split; [reflexivity|]. splits; auto; try reflexivity; [split; reflexivity|cflags].
  - destruct Hc as [-> E]; inversion E; subst. eapply Same; [split; reflexivity|split; reflexivity|reflexivity|reflexivity|reflexivity|reflexivity|reflexivity|reflexivity|reflexivity|reflexivity|reflexivity|reflexivity|cflags|reflexivity|reflexivity].
  - destruct Hc as (-> & Hr & -> & _). split; [reflexivity|]. right. auto.
  - destruct Hg as [s0 ->]. destruct Hc as [-> E]. unfold at_serial_write in E. destruct (fLock (fl d)).
    + destruct (s_write_str (s0 ++ [NUL]) (io d)) as [[k y]|]; [|discriminate]. cbn [bind] in E. inversion E; subst.
      eapply Same; [split; reflexivity|split; reflexivity|reflexivity|reflexivity|reflexivity|reflexivity|reflexivity|reflexivity|reflexivity|reflexivity|reflexivity|reflexivity|cflags|reflexivity|reflexivity].
    + cbn [bind] in E. inversion E; subst. eapply Same; [split; reflexivity|split; reflexivity|reflexivity|reflexivity|reflexivity|reflexivity|reflexivity|reflexivity|reflexivity|reflexivity|reflexivity|reflexivity|cflags|reflexivity|reflexivity].
  - destruct Hc as [-> E]. unfold at_serial_read in E. destruct (fLock (fl d)).
    + destruct (s_read_many n (io d)) as [[[cs k] y]|]; [|discriminate]. cbn [bind] in E. inversion E; subst.
      eapply Same; [split; reflexivity|split; reflexivity|reflexivity|reflexivity|reflexivity|reflexivity|reflexivity|reflexivity|reflexivity|reflexivity|reflexivity|reflexivity|cflags|reflexivity|reflexivity].
    + cbn [bind] in E. inversion E; subst. eapply Same; [split; reflexivity|split; reflexivity|reflexivity|reflexivity|reflexivity|reflexivity|reflexivity|reflexivity|reflexivity|reflexivity|reflexivity|reflexivity|cflags|reflexivity|reflexivity].
  - destruct Hc as [-> E]; inversion E; subst. eapply Same; [split; reflexivity|split; reflexivity|reflexivity|reflexivity|reflexivity|reflexivity|reflexivity|reflexivity|reflexivity|reflexivity|reflexivity|reflexivity|cflags|reflexivity|reflexivity].
  - destruct Hc as [-> E]; inversion E; subst. eapply Same; [split; reflexivity|split; reflexivity|reflexivity|reflexivity|reflexivity|reflexivity|reflexivity|reflexivity|reflexivity|reflexivity|reflexivity|reflexivity|cflags|reflexivity|reflexivity].
  - destruct Hc as (-> & Hx & _). destruct Hx as (X1 & X2 & X3 & X4 & X5 & X6 & X7 & X8 & X9 & X10 & X11 & X12 & X13 & X14 & X15 & X16 & X17).
    split; [reflexivity|]. left. unfold accepted, delivered, call_flags. cbn [e_op e_out]. destruct X2 as (-> & -> & -> & -> & -> & ->).
    rewrite app_nil_r. cbn [app]. split; [reflexivity|]. splits; auto; try (intro; split; auto). all: try (right; eexists; reflexivity).
Qed.

Lemma fold_ext : forall (A B : Type) (f g : A -> B -> A) l a, (forall a b, f a b = g a b) -> fold_left f l a = fold_left g l a.
Proof. intros A B f g l. induction l; intros a0 H; cbn; [reflexivity|]. rewrite H. apply IHl. assumption. Qed.

Lemma fold_pair : forall (A B : Type) (f : act -> list A) (g : act -> list B) l x y,
  fold_left (fun acc a => (fst acc ++ f a, snd acc ++ g a)) l (x, y) = (x ++ all f l, y ++ all g l).
Proof.
  intros A B f g l. induction l as [|a l IH]; intros x y; cbn [fold_left fst snd].
  - unfold all. cbn. rewrite !app_nil_r. reflexivity.
  - rewrite IH. unfold all. cbn. rewrite !app_assoc. reflexivity.
Qed.

Lemma pair_log : forall (A B : Type) (f : act -> list A) (g : act -> list B) (h : list A * list B -> @entry XO -> list A * list B) acc e,
  (forall oo, e_op e = OpRun oo -> h acc e = (fst acc ++ all f (e_acts e), snd acc ++ all g (e_acts e))) ->
  reading (fun acc a => (fst acc ++ f a, snd acc ++ g a)) h acc e = h acc e.
Proof.
  intros A B f g h acc e H. unfold reading. destruct (e_op e) eqn:Eo; try reflexivity. rewrite (H _ eq_refl).
  destruct acc as [x y]. rewrite fold_pair. reflexivity.
Qed.

(** *** Line assembly *)
Theorem line_history : forall (whole : bytes -> Prop), (forall d L, sh_whole Sh d L -> whole L) ->
  forall d0 tr d, histS d0 tr d -> lbfill d0 = 0 ->
  fst (fold_left line_log tr ([], [])) = concat (snd (fold_left line_log tr ([], []))) ++ pending d /\
  Forall whole (snd (fold_left line_log tr ([], []))).
Proof.
  intros whole HW d0 tr d Hh H0.
  set (K := fun (acc : bytes * list bytes) (d : dv) => fst acc = concat (snd acc) ++ pending d /\ Forall whole (snd acc)).
  set (f := fun (acc : bytes * list bytes) a => (fst acc ++ act_line_bytes a, snd acc ++ act_lines a)).
  assert (Same : forall acc d d', K acc d -> keep_line d d' -> K acc d').
  { intros acc d1 d2 [K1 K2] [E1 E2]. unfold K, pending. rewrite E1, E2. auto. }
  assert (HK : K (fold_left (reading f line_log) tr ([], [])) d).
  { apply (hist_ghost _ K f line_log (fun _ => True)) with (d := d0); auto.
    - intros acc d1 q d2 HK _ Hr _. destruct acc as [x y]. unfold f. cbn [act_line_bytes act_lines fst snd]. rewrite !app_nil_r.
      eapply Same; [exact HK|apply Hr].
    - intros [x y] d1 r d2 b [K1 K2] Hi _. cbn [fst snd] in *. unfold f, K. cbn [fst snd]. destruct Hi; cbn [act_line_bytes act_lines].
      + rewrite app_nil_r, K1. match goal with H : pending d2 = _ |- _ => rewrite H end. rewrite app_assoc. auto.
      + rewrite app_nil_r, K1. match goal with H : pending d2 = _ |- _ => rewrite H end. rewrite app_assoc. auto.
      + unfold pending at 1. match goal with H : lbfill d2 = _ |- _ => rewrite H end. cbn [firstn]. rewrite concat_app. cbn [concat]. rewrite !app_nil_r. split.
        * subst L. rewrite K1, app_assoc. reflexivity.
        * apply Forall_app. split; [assumption|]. constructor; [|constructor]. eapply HW. eassumption.
    - intros e [x y] d1 d2 b _ HK Ho _ _ _ _. unfold f. cbn [fst snd].
      assert (act_line_bytes b = [] /\ act_lines b = []) as [-> ->] by (destruct Ho; auto). rewrite !app_nil_r.
      eapply Same; [exact HK|]. destruct Ho; assumption.
    - intros e [x y] d1 d2 _ Hg HI [K1 K2] Hc Hn. cbn [fst snd] in *. destruct (call_delta e d1 d2 HI Hg Hc Hn) as [Ea [(R & KL & _)|[R Hr]]].
      + unfold line_log. rewrite R, Ea. unfold all. cbn [map concat fst snd]. rewrite !app_nil_r. eapply Same; [split; eassumption|assumption].
      + unfold line_log. rewrite R. cbn [is_reset]. destruct Hr as (y0 & ev & s0 & r0 & rs & x0 & _ & _ & _ & _ & _ & _ & _ & _ & ->).
        split; [reflexivity|constructor].
    - apply Forall_forall. auto.
    - unfold K, pending. rewrite H0. split; [reflexivity|constructor]. }
  rewrite (fold_ext _ _ _ line_log) in HK; [exact HK|]. intros acc e. apply pair_log. intros oo E. unfold line_log. rewrite E. reflexivity.
Qed.

(** *** Application data on its way out *)
Definition announces (l : list act) : bool := existsb (fun a => match a with aAnnounce _ _ => true | _ => false end) l.

Theorem write_history : sh_insend Sh (sh_error Sh) = false ->
  forall d0 tr d, histS d0 tr d -> ring_ok (wbuf d0) -> contents (wbuf d0) = [] -> sh_insend Sh (sst d0) = false ->
  Forall (fun e => clean (e_ev e) /\ (announces (e_acts e) = true -> e_sch e = [])) tr ->
  fst (fold_left write_log tr ([], [])) = snd (fold_left write_log tr ([], [])) ++ contents (wbuf d) /\ ring_ok (wbuf d) /\
  (sh_insend Sh (sst d) = true -> (0 <= toWrite d <= Z.of_nat (avail (wbuf d)))%Z).
Proof.
  intros HE d0 tr d Hh Hok Hct His HQ.
  set (K := fun (acc : bytes * bytes) (d : dv) => fst acc = snd acc ++ contents (wbuf d) /\ ring_ok (wbuf d) /\
     (sh_insend Sh (sst d) = true -> (0 <= toWrite d <= Z.of_nat (avail (wbuf d)))%Z)).
  set (f := fun (acc : bytes * bytes) a => (fst acc ++ (fun _ : act => @nil ascii) a, snd acc ++ act_sent a)).
  assert (HK : K (fold_left (reading f write_log) tr ([], [])) d).
  { apply (hist_ghost _ K f write_log (fun e => clean (e_ev e) /\ (announces (e_acts e) = true -> e_sch e = []))) with (d := d0); auto.
    - intros acc d1 (K1 & K2 & K3). unfold K. cbn. rewrite HE. splits; auto. discriminate.
    - intros [x y] d1 q d2 (K1 & K2 & K3) _ Hr _. unfold K, f. cbn [fst snd act_sent] in *. rewrite !app_nil_r.
      destruct Hr as (_ & _ & (_ & _ & -> & _) & _ & _ & _ & _ & _ & _ & -> & _). splits; auto. discriminate.
    - intros [x y] d1 r d2 b (K1 & K2 & K3) Hi _. unfold K, f. cbn [fst snd] in *.
      assert (act_sent b = [] /\ wbuf d2 = wbuf d1 /\ toWrite d2 = toWrite d1 /\ (sh_insend Sh (sst d2) = true -> sh_insend Sh (sst d1) = true)) as (-> & -> & -> & Z)
        by (destruct Hi; splits; auto; try match goal with H : keep _ _ |- _ => apply H end; congruence).
      rewrite !app_nil_r. splits; auto.
    - intros e [x y] d1 d2 b (Q1 & Q2) (K1 & K2 & K3) Ho _ Hb Hsc Hcl. unfold K, f. cbn [fst snd] in *. rewrite app_nil_r.
      destruct Ho; cbn [act_sent]; rewrite ?app_nil_r.
      + match goal with H : keep d1 d2 |- _ => destruct H as (_ & _ & -> & _) end.
        match goal with H : toWrite d2 = _ |- _ => rewrite H end. splits; auto.
      + match goal with H : keep d1 d2 |- _ => destruct H as (_ & _ & -> & _) end.
        match goal with H : toWrite d2 = _ |- _ => rewrite H end. splits; auto.
      + match goal with H : keep d1 d2 |- _ => destruct H as (_ & _ & -> & _) end. splits; auto. intros _. subst n. split; [assumption|].
        match goal with H : sched _ = [] -> _ |- _ => rename H into HS end.
        rewrite Hsc in HS; [|apply Q2; unfold announces; apply existsb_exists; eexists; split; [exact Hb|reflexivity]]. specialize (HS eq_refl). lia.
      + match goal with H : sh_insend Sh (sst d1) = true |- _ => specialize (K3 H) end.
        match goal with H : ring_ok (wbuf d1) -> _ |- _ => destruct (H K2 ltac:(lia)) as (O1 & O2 & O3) end.
        rewrite O2, O3 by (apply Hcl; assumption). rewrite K1, <- app_assoc, firstn_skipn. splits; auto. congruence.
      + match goal with H : wbuf d2 = _ |- _ => rewrite H end. match goal with H : toWrite d2 = _ |- _ => rewrite H end. splits; auto.
    - intros e [x y] d1 d2 _ Hg HI (K1 & K2 & K3) Hc Hn. cbn [fst snd] in *. destruct (call_delta e d1 d2 HI Hg Hc Hn) as [Ea [(R & KL & W & _ & _ & _ & S & _ & _ & _ & _ & Z & _ & O & _)|[R Hr]]].
      + unfold write_log, K. rewrite R, Ea. unfold all. cbn [map concat fst snd]. rewrite !app_nil_r.
        destruct (O K2) as [O1 O2]. rewrite O2, K1, app_assoc, S, W. splits; auto. intro Hs. specialize (K3 Hs).
        pose proof (contents_length (wbuf d2) (proj1 O1)). pose proof (contents_length (wbuf d1) (proj1 K2)). rewrite O2, app_length in H. lia.
      + unfold write_log, K. rewrite R. cbn [is_reset]. destruct Hr as (y0 & ev & s0 & r0 & rs & x0 & _ & _ & _ & _ & _ & _ & _ & Hs0 & ->). cbn.
        destruct (ring_flush_ok (wbuf d1) (proj1 K2)) as [O1 O2]. rewrite Hs0. splits; auto. discriminate.
    - unfold K. rewrite Hct, His. splits; auto. discriminate. }
  rewrite (fold_ext _ _ _ write_log) in HK; [exact HK|]. intros acc e. unfold f. apply pair_log. intros oo E. unfold write_log. rewrite E. cbn [is_reset]. unfold accepted. rewrite E.
  f_equal. f_equal. unfold all. induction (e_acts e); [reflexivity|assumption].
Qed.

(** *** Announced lengths *)
Definition payloads (l : list act) : bool := existsb ispayload l.

Theorem announce_history : sh_insend Sh (sh_error Sh) = false ->
  forall d0 tr d, histS d0 tr d -> sh_insend Sh (sst d0) = false ->
  (sh_insend Sh (sst d) = true -> fold_left announce_log tr None = Some (toWrite d)).
Proof.
  intros HE d0 tr d Hh H0.
  set (K := fun (o : option Z) (d : dv) => sh_insend Sh (sst d) = true -> o = Some (toWrite d)).
  assert (HK : K (fold_left (reading announce announce_log) tr None) d).
  { apply (hist_ghost _ K announce announce_log (fun _ => True)) with (d := d0); auto.
    - intros a d1 HK. unfold K. cbn. rewrite HE. discriminate.
    - intros a d1 q d2 HK _ Hr _ Hs. destruct Hr as (_ & _ & _ & _ & _ & _ & _ & _ & _ & E & _). congruence.
    - intros a d1 r d2 b HK Hi _ Hs.
      assert (announce a b = a /\ toWrite d2 = toWrite d1 /\ sh_insend Sh (sst d1) = true) as (-> & -> & Z) by (destruct Hi; splits; auto; congruence). auto.
    - intros e a d1 d2 b _ HK Ho _ _ _ _ Hs. destruct Ho; cbn [announce]; try congruence.
      + match goal with H : toWrite d2 = _ |- _ => rewrite H end. auto.
      + match goal with H : toWrite d2 = _ |- _ => rewrite H end. auto.
      + match goal with H : toWrite d2 = _ |- _ => rewrite H end. auto.
    - intros e a d1 d2 _ Hg HI HK Hc Hn Hs. destruct (call_delta e d1 d2 HI Hg Hc Hn) as [Ea [(R & KL & W & _ & _ & _ & S & _)|[R Hr]]].
      + unfold announce_log. rewrite R, Ea, W. cbn [fold_left]. apply HK. congruence.
      + destruct Hr as (y0 & ev & s0 & r0 & rs & x0 & _ & _ & _ & _ & _ & _ & _ & Hs0 & ->). cbn in Hs. congruence.
    - apply Forall_forall. auto.
    - unfold K. congruence. }
  rewrite (fold_ext _ _ _ announce_log) in HK; [exact HK|]. intros acc e. unfold reading, announce_log. destruct (e_op e); reflexivity.
Qed.

(** The payload sent has the length announced last. *)
Theorem payload_announced : sh_insend Sh (sh_error Sh) = false ->
  forall d0 tr d e d' q, histS d0 tr d -> sh_insend Sh (sst d0) = false -> estepS d e d' -> In (aPayload q) (e_acts e) ->
  exists n, fold_left announce_log tr None = Some n /\ (forall r, ~ In (aReset r) (e_acts e)) /\
    length q <= Z.to_nat n /\ (clean (e_ev e) -> length q = Z.to_nat n).
Proof.
  intros HE d0 tr d e d' q Hh H0 Hs Hin.
  pose proof (announce_history HE d0 tr d Hh H0) as HA.
  destruct Hs as (I1 & I2 & Hg & Hst & Hsc & Hwi & Hio & Hcl & d1 & Hc & Hd' & (ev2 & Hlog) & _).
  assert (Hr : exists oo, e_op e = OpRun oo).
  { destruct (e_op e) eqn:Eo; eauto; exfalso; cbn [callrel] in Hc; destruct Hc as [Ea _]; rewrite Ea in Hin; destruct Hin. }
  destruct Hr as [oo Eo]. rewrite Eo in Hc. cbn [callrel] in Hc. destruct Hc as [Hr _].
  assert (Hw : serial_wf (ser (io (during (e_sch e) d)))) by (apply (c_wf _ _ _ _ _ HC); apply (during_inv D Sh Inv Bad goodx HC); assumption).
  assert (Es : sst (during (e_sch e) d) = sst d) by reflexivity. assert (Et : toWrite (during (e_sch e) d) = toWrite d) by reflexivity.
  revert Hlog. generalize dependent (during (e_sch e) d). intros dd Hr Hw Es Et Hlog.
  assert (NI : forall a d1 r d2, ilab (sh_insend Sh) (sh_whole Sh) (sh_part Sh) (sh_clears Sh) d1 r d2 a -> a <> aPayload q).
  { intros a x r x2 Hi. destruct Hi; discriminate. }
  assert (NP : forall l x, prerun Sh dd l x -> ~ In (aPayload q) l).
  { intros l x [(_ & -> & _)|(_ & q0 & -> & _)] HH; [destruct HH|]. destruct HH as [HH|[]]. discriminate. }
  destruct Hr as [| | |l x _ _ HP|l x a x2 _ HP HI _|l x a x2 b x3 _ HP HI HX HO HOX]; try (destruct Hin; fail).
  - exfalso. eapply NP; eauto.
  - exfalso. apply in_app_or in Hin as [Hin|[Hin|[]]]; [eapply NP; eauto|eapply NI; eauto].
  - apply in_app_or in Hin as [Hin|[Hin|[Hin|[]]]]; [exfalso; eapply NP; eauto|exfalso; eapply NI; eauto|]. subst b.
    inversion HO; subst.
    assert (Hx2 : sh_insend Sh (sst x) = true /\ toWrite x2 = toWrite x) by (destruct HI; split; congruence + auto).
    destruct Hx2 as [Hx2 Ht2].
    destruct HP as [(_ & El & ->)|(_ & q0 & El & HQ & _)].
    2:{ exfalso. destruct HQ as (_ & _ & _ & _ & _ & _ & _ & _ & _ & HQ & _). congruence. }
    exists (toWrite d). rewrite <- Et, <- Ht2. splits; auto.
    + rewrite Ht2, Et. apply HA. congruence.
    + intros r HH. subst l. destruct HH as [HH|[HH|[]]]; [|discriminate]. subst a. inversion HI.
    + intro Hcl2. match goal with H : clean ev -> length (put ev) = _ |- _ => apply H end.
      match goal with H : sstep (io x2) _ ev |- _ => rewrite (sstep_log _ _ _ H), <- app_assoc in Hlog end.
      rewrite Hlog in Hcl2. exact (clean_mid _ _ _ Hcl2).
Qed.

(** *** Commands wait for replies *)
Definition sends_reset : bool := match sh_reset Sh with [] => false | _ => true end.

Theorem pace_history :
  forall d0 tr d, histS d0 tr d ->
  exists b, fold_left (pace_log sends_reset) tr (Some false) = Some b /\ (b = true -> awaiting (sh_ok Sh) d).
Proof.
  intros d0 tr d Hh.
  set (K := fun (o : option bool) (d : dv) => exists b, o = Some b /\ (b = true -> awaiting (sh_ok Sh) d)).
  assert (HK : K (fold_left (reading (pace sends_reset) (pace_log sends_reset)) tr (Some false)) d).
  { apply (hist_ghost _ K (pace sends_reset) (pace_log sends_reset) (fun _ => True)) with (d := d0); auto.
    - intros a d1 q d2 (b & -> & Hb) _ Hr _. exists sends_reset. cbn [pace]. split; [destruct b; reflexivity|]. unfold sends_reset.
      destruct Hr as (_ & _ & _ & _ & _ & _ & _ & _ & _ & _ & _ & _ & E). intro Hn. left. intro Hw. specialize (E Hw). rewrite E in Hn. discriminate.
    - intros a d1 r d2 b (x & -> & Hx) Hi _. destruct Hi; cbn [pace].
      + exists x. split; [destruct x; reflexivity|]. unfold awaiting in *. intro E. specialize (Hx E). congruence.
      + exists x. split; [destruct x; reflexivity|]. unfold awaiting in *. intro E. specialize (Hx E). congruence.
      + exists false. split; [destruct x; reflexivity|discriminate].
    - intros e a d1 d2 b _ (x & -> & Hx) Ho _ _ _ _. destruct Ho; cbn [pace].
      + exists x. split; [destruct x; reflexivity|]. unfold awaiting in *. intro E. specialize (Hx E). congruence.
      + exists true. destruct x; [exfalso; auto|]. auto.
      + exists true. destruct x; [exfalso; auto|]. split; [reflexivity|]. intros _. left. congruence.
      + exists true. destruct x; [exfalso; auto|]. split; [reflexivity|]. intros _. left. assumption.
      + exists x. destruct x; [exfalso; auto|]. split; [reflexivity|discriminate].
    - intros e a d1 d2 _ Hg HI (x & -> & Hx) Hc Hn. destruct (call_delta e d1 d2 HI Hg Hc Hn) as [Ea [(R & KL & W & _ & _ & Wt & S & Rs & _)|[R Hr]]].
      + unfold pace_log. rewrite R, Ea. cbn [fold_left]. exists x. split; [reflexivity|]. unfold awaiting in *. rewrite Wt, Rs. assumption.
      + unfold pace_log. rewrite R. cbn [is_reset]. exists false. split; [destruct x; reflexivity|discriminate].
    - apply Forall_forall. auto.
    - exists false. split; [reflexivity|discriminate]. }
  rewrite (fold_ext _ _ _ (pace_log sends_reset)) in HK; [exact HK|]. intros acc e. unfold reading, pace_log. destruct (e_op e); reflexivity.
Qed.

(** *** Application data on its way in *)
Definition room (n : nat) (acc : bytes * bytes) : Prop := length (fst acc) <= length (snd acc) + n.
Fixpoint fits_all (n : nat) (acc : bytes * bytes) (tr : list (@entry XO)) : Prop :=
  match tr with [] => True | e :: tr => room n (read_log acc e) /\ fits_all n (read_log acc e) tr end.

Theorem read_history : forall d0 tr d, histS d0 tr d -> ring_ok (rbuf d0) ->
  forall acc, fst acc = snd acc ++ contents (rbuf d0) -> fits_all (rsize (rbuf d0)) acc tr ->
  let acc' := fold_left read_log tr acc in
  fst acc' = snd acc' ++ contents (rbuf d) /\ ring_ok (rbuf d) /\ rsize (rbuf d) = rsize (rbuf d0).
Proof.
  intros d0 tr d Hh. cbv zeta. induction Hh as [d|d e d1 tr d2 Hs Hh IH]; intros Hok acc Ha Hf; [cbn; auto|].
  cbn [fold_left fits_all] in *. destruct Hf as [Hr Hf].
  assert (Hst : ring_ok (rbuf d1) /\ rsize (rbuf d1) = rsize (rbuf d) /\ fst (read_log acc e) = snd (read_log acc e) ++ contents (rbuf d1)).
  { destruct (e_op e) eqn:Eo.
    2:{ set (K := fun (c : bytes * bytes) (x : dv) => (room (rsize (rbuf d)) c -> ring_ok (rbuf x) /\ rsize (rbuf x) = rsize (rbuf d) /\ fst c = snd c ++ contents (rbuf x))).
    set (f := fun (acc : bytes * bytes) a => (fst acc ++ act_received a, snd acc ++ (fun _ : act => @nil ascii) a)).
    assert (HK : K (reading f read_log acc e) d1).
    { apply (step_ghost _ K f read_log (fun e => exists oo, e_op e = OpRun oo)) with (d := d); auto.
      - intros [x y] x1 q x2 HK _ Hq _. unfold K, f. cbn [fst snd act_received] in *. rewrite !app_nil_r.
        destruct Hq as (_ & _ & (_ & -> & _) & _). exact HK.
      - intros [x y] x1 r x2 b HK Hi _. unfold K, f. cbn [fst snd] in *.
        assert (act_received b = [] /\ rbuf x2 = rbuf x1) as (-> & ->) by (destruct Hi; splits; auto; try match goal with H : keep _ _ |- _ => apply H end).
        rewrite !app_nil_r. exact HK.
      - intros e0 [x y] x1 x2 b _ HK Ho _ _ _ _. unfold K, f. cbn [fst snd] in *. rewrite !app_nil_r. destruct Ho; cbn [act_received]; rewrite ?app_nil_r.
        + match goal with H : keep x1 x2 |- _ => destruct H as (_ & -> & _) end. exact HK.
        + match goal with H : keep x1 x2 |- _ => destruct H as (_ & -> & _) end. exact HK.
        + match goal with H : keep x1 x2 |- _ => destruct H as (_ & -> & _) end. exact HK.
        + match goal with H : rbuf x2 = _ |- _ => rewrite H end. exact HK.
        + intro Hro. unfold room in Hro. cbn [fst snd] in Hro. rewrite app_length in Hro.
          destruct HK as (G1 & G2 & G3); [unfold room; cbn; lia|]. cbn [fst snd] in G3.
          match goal with H : ring_ok (rbuf x1) -> _ |- _ => rename H into HR end.
          pose proof (contents_length (rbuf x1) (proj1 G1)) as HL. rewrite G3, app_length in Hro.
          destruct (HR G1 ltac:(lia)) as [O1 O2]. rewrite O2, G3, app_assoc. splits; auto. congruence.
      - intros e0 c x1 x2 [oo E] _ _ _ _ Hn. exfalso. exact (Hn oo E).
      - exists open_ok. assumption.
      - intros _. auto. }
    assert (E : reading f read_log acc e = read_log acc e).
    { unfold f. apply pair_log. intros oo E. unfold read_log, delivered. rewrite E. cbn [is_reset]. f_equal. f_equal.
      unfold all. induction (e_acts e); [reflexivity|assumption]. }
    rewrite E in HK. apply HK. exact Hr. }
    all: assert (Hn : forall oo, e_op e <> OpRun oo) by (rewrite Eo; discriminate).
    all: destruct Hs as (I1 & I2 & Hg & Hst & Hsc & Hwi & Hio & Hcl & x & Hc & Hd' & _).
    all: pose proof (during_inv D Sh Inv Bad goodx HC (e_sch e) d I1) as Hdu.
    all: destruct (call_delta e _ x Hdu Hg Hc Hn) as [Ea [(R & _ & _ & _ & _ & _ & _ & _ & _ & _ & _ & _ & Z & _ & O & _)|[R Hq]]]; [|try congruence].
    all: try (rewrite Hd'; change (rbuf (set_io (io d1) x)) with (rbuf x); change (rbuf (during (e_sch e) d)) with (rbuf d) in *;
      destruct (O Hok) as [O1 O2]; splits; [assumption..|]; unfold read_log; rewrite R, Ea; unfold all; cbn [map concat fst snd];
      rewrite app_nil_r, <- app_assoc, <- O2; assumption).
    destruct Hq as (y0 & ev & s0 & r0 & rs & x0 & _ & _ & _ & _ & _ & _ & _ & _ & Hq).
    destruct (ring_flush_ok (rbuf d) (proj1 Hok)) as [O1 O2].
    rewrite Hd', Hq. change (rbuf (set_io _ _)) with (ring_flush (rbuf d)). rewrite O2. splits; auto. unfold read_log. rewrite R. reflexivity. }
  destruct Hst as (S1 & S2 & S3). rewrite <- S2 in Hf. destruct (IH S1 _ S3 Hf) as (T1 & T2 & T3). rewrite T3. auto.
Qed.

(** One call of a history: a run(), or a call spelled out by [ring_delta]. *)
Lemma step_cases : forall d e d', estepS d e d' ->
  exists d1, d' = set_io (io d') d1 /\ Inv (during (e_sch e) d) /\
    ((exists oo, e_op e = OpRun oo /\ rrun Sh oo (during (e_sch e) d) (e_acts e) d1) \/
     ((forall oo, e_op e <> OpRun oo) /\ e_acts e = [] /\ ring_delta e (during (e_sch e) d) d1 /\
      callrel D Sh (e_op e) (during (e_sch e) d) (e_out e) (e_acts e) d1)).
Proof.
  intros d e d' (I1 & I2 & Hg & _ & _ & _ & _ & _ & d1 & Hc & Hd & _).
  pose proof (during_inv D Sh Inv Bad goodx HC (e_sch e) d I1) as Hdu.
  exists d1. split; [assumption|]. split; [assumption|].
  destruct (e_op e) eqn:Eo; try (right; assert (Hn : forall oo, e_op e <> OpRun oo) by (rewrite Eo; discriminate);
    rewrite <- Eo in Hg, Hc; destruct (call_delta e _ _ Hdu Hg Hc Hn) as [E1 E2]; rewrite Eo in *; splits; auto; fail).
  left. exists open_ok. split; [reflexivity|]. apply Hc.
Qed.

(** Reading off the actions of a history, with a fresh start at resetStates(). *)
Definition act_log {A} (f : A -> act -> A) (z : A -> A) (a : A) (e : @entry XO) : A :=
  if is_reset (e_op e) then z a else fold_left f (e_acts e) a.

Lemma act_ghost : forall (A : Type) (K : A -> dv -> Prop) (f : A -> act -> A) (z : A -> A) (Q : @entry XO -> Prop),
  (forall a y d, K a d -> K a (set_io y d)) ->
  (forall a d, K a d -> K a (set_isopen true d)) ->
  (forall a d, K a d -> K a (set_sst (sh_error Sh) d)) ->
  (forall a d q d', K a d -> fReset (fl d) = true -> resets Sh d q d' -> sh_rext Sh d d' -> K (f a (aReset q)) d') ->
  (forall a d r d' b, K a d -> ilab (sh_insend Sh) (sh_whole Sh) (sh_part Sh) (sh_clears Sh) d r d' b -> sh_iext Sh d r b d' -> K (f a b) d') ->
  (forall e a d d' b, Q e -> K a d -> olab (sh_ok Sh) (sh_says Sh) (sh_tail Sh) (sh_insend Sh) (sh_ch Sh) d d' b ->
     sh_oext Sh d b d' -> K (f a b) d') ->
  (forall e a d d', Q e -> Inv d -> K a d -> ring_delta e d d' -> is_reset (e_op e) = false -> callrel D Sh (e_op e) d (e_out e) (e_acts e) d' ->
     call_flags e d d' -> sst d' = sst d -> rst d' = rst d -> wait d' = wait d -> cst d' = cst d -> K a d') ->
  (forall a d d', Inv d -> K a d -> resetstates Sh d d' -> drv_reset D d = Ok d' -> K (z a) d') ->
  forall d tr d', histS d tr d' -> Forall Q tr -> forall a, K a d -> K (fold_left (act_log f z) tr a) d'.
Proof.
  intros A K f z Q H0 H1 H2 H3 H4 H5 H6 H7 d tr d' H HQ a Ha.
  assert (G : K (fold_left (reading f (fun a e => if is_reset (e_op e) then z a else a)) tr a) d').
  { apply (hist_ghost _ K f (fun a e => if is_reset (e_op e) then z a else a) Q) with (d := d); auto.
    - intros. eapply H5; eauto.
    - intros e x d1 d2 Q1 Hg HI HK Hc Hn. destruct (call_delta e d1 d2 HI Hg Hc Hn) as [Ea [Hr|[R Hr]]].
      + pose proof Hr as (R & _ & _ & _ & _ & R1 & R2 & R3 & R4 & _ & _ & _ & _ & _ & _ & R5).
        rewrite R. eapply H6; eauto. left. exact Hr.
      + rewrite R. cbn [is_reset]. rewrite R in Hc. destruct Hc as (_ & _ & _ & Hc). eapply H7; eauto. }
  assert (E : fold_left (act_log f z) tr a = fold_left (reading f (fun a e => if is_reset (e_op e) then z a else a)) tr a).
  { clear - H HC. revert a. induction H as [|d e d1 tr d2 Hs Hh IH]; intro a; [reflexivity|]. cbn [fold_left]. rewrite IH. f_equal.
    destruct (step_cases d e d1 Hs) as (x & _ & _ & [(oo & E & _)|(Hn & E & _)]); unfold reading, act_log.
    - rewrite E. reflexivity.
    - rewrite E. cbn [fold_left]. destruct (e_op e) eqn:Eo; try reflexivity. }
  rewrite E. exact G.
Qed.

(** The same with a reading that also looks at the other calls. *)
Lemma call_ghost : forall (A : Type) (K : A -> dv -> Prop) (f : A -> act -> A) (h : A -> @entry XO -> A) (Q : @entry XO -> Prop),
  (forall a y d, K a d -> K a (set_io y d)) ->
  (forall a d, K a d -> K a (set_isopen true d)) ->
  (forall a d, K a d -> K a (set_sst (sh_error Sh) d)) ->
  (forall a d q d', K a d -> fReset (fl d) = true -> resets Sh d q d' -> sh_rext Sh d d' -> K (f a (aReset q)) d') ->
  (forall a d r d' b, K a d -> ilab (sh_insend Sh) (sh_whole Sh) (sh_part Sh) (sh_clears Sh) d r d' b -> sh_iext Sh d r b d' -> K (f a b) d') ->
  (forall e a d d' b, Q e -> K a d -> olab (sh_ok Sh) (sh_says Sh) (sh_tail Sh) (sh_insend Sh) (sh_ch Sh) d d' b ->
     sh_oext Sh d b d' -> K (f a b) d') ->
  (forall e a d d', Q e -> Inv d -> K a d -> is_reset (e_op e) = false -> callrel D Sh (e_op e) d (e_out e) (e_acts e) d' ->
     call_flags e d d' -> sst d' = sst d -> rst d' = rst d -> wait d' = wait d -> cst d' = cst d -> K (h a e) d') ->
  (forall e a d d', Inv d -> K a d -> e_op e = OpResetStates -> resetstates Sh d d' -> drv_reset D d = Ok d' -> K (h a e) d') ->
  forall d tr d', histS d tr d' -> Forall Q tr -> forall a, K a d -> K (fold_left (reading f h) tr a) d'.
Proof.
  intros A K f h Q H0 H1 H2 H3 H4 H5 H6 H7 d tr d' H HQ a Ha.
  apply (hist_ghost _ K f h Q) with (d := d); auto.
  - intros. eapply H5; eauto.
  - intros e x d1 d2 Q1 Hg HI HK Hc Hn. destruct (call_delta e d1 d2 HI Hg Hc Hn) as [Ea [Hr|[R Hr]]].
    + pose proof Hr as (R & _ & _ & _ & _ & R1 & R2 & R3 & R4 & _ & _ & _ & _ & _ & _ & R5). eapply H6; eauto.
    + pose proof Hc as Hc'. rewrite R in Hc'. destruct Hc' as (_ & _ & _ & Hc'). eapply H7; eauto.
Qed.

(** A locked port is left alone. *)
Lemma locked_run : forall oo d l d', sh_lock Sh = true -> fLock (fl d) = true -> rrun Sh oo d l d' ->
  l = [] /\ (d' = d \/ d' = set_isopen true d \/ d' = set_sst (sh_error Sh) d).
Proof. intros oo d l d' Hs Hl H. destruct H as [| | |l d1 (_ & R & _)|l d1 a d2 (_ & R & _)|l d1 a d2 b d3 (_ & R & _)]; auto; rewrite (R Hs) in Hl; discriminate. Qed.

(** serialRead() and serialWrite() do nothing unless the port is locked. *)
Definition raw_access (e : @entry XO) : Prop := (exists n, e_op e = OpSerialRead n) \/ (exists s, e_op e = OpSerialWrite s).

Lemma raw_dec : forall e, raw_access e \/ ~ raw_access e.
Proof. intro e. unfold raw_access. destruct (e_op e); try (right; intros [[? H]|[? H]]; discriminate H); left; eauto. Qed.

Lemma raw_unlocked : forall d e d', estepS d e d' -> raw_access e -> fLock (fl d) = false ->
  (e_out e = DCount 0 \/ e_out e = DData [] 0) /\ taken (e_ev e) = [] /\ put (e_ev e) = [] /\ d' = set_io (io d') d.
Proof.
  intros d e d' (HI & _ & _ & Hs & _) Hr Hl. pose proof (c_wf _ _ _ _ _ HC d HI) as (Hw & _).
  unfold d_step in Hs. destruct (run_isrs_wf (concat (e_sch e)) (ser (io d)) Hw) as (s' & ev & E & _ & _ & F & _).
  destruct (isr_ev_quiet ev F) as (T & P & _).
  destruct Hr as [[n Eo]|[s Eo]]; rewrite Eo in Hs; cbn [d_call] in Hs.
  - unfold at_serial_read in Hs. change (fLock (fl (set_io _ d))) with (fLock (fl d)) in Hs. rewrite Hl in Hs. cbn [bind] in Hs.
    cbn [io set_io sched ser slog] in *. rewrite E in Hs. cbn [bind] in Hs. inversion Hs; subst. cbn [app io set_io]. rewrite T, P. auto.
  - unfold at_serial_write in Hs. change (fLock (fl (set_io _ d))) with (fLock (fl d)) in Hs. rewrite Hl in Hs. cbn [bind] in Hs.
    cbn [io set_io sched ser slog] in *. rewrite E in Hs. cbn [bind] in Hs. inversion Hs; subst. cbn [app io set_io]. rewrite T, P. auto.
Qed.

(** Calls that are neither run() nor serialRead()/serialWrite() do not touch the port. *)
Lemma call_quiet : forall d e d', estepS d e d' -> e_acts e = [] -> ~ raw_access e -> taken (e_ev e) = [] /\ put (e_ev e) = [].
Proof.
  intros d e d' (_ & _ & _ & _ & _ & _ & Hio & _) Ha Hn. rewrite Ha in Hio. unfold call_io in Hio.
  destruct (e_op e) eqn:Eo; try exact Hio; try tauto.
  - contradiction Hn. right. eauto.
  - contradiction Hn. left. eauto.
Qed.
End Hist.
