(** Dialogues between a driver and a modem that answers: which calls happen, and
    which reply line each run() reads. *)
From Coq Require Import String Ascii ZArith List Bool Arith Lia ZifyBool ZifyNat.
From Verif Require Import Base QueueSpec LineSpec SerialSpec Ring RingProofs LineRing LineRingProofs Serial SerialProofs
  SerStep TaskMacros CStr CStrProofs Dev DevProofs SimDev SimProofs Sym DrvStep DrvCommon DrvRun.
Import ListNotations.
Local Open Scope nat_scope.
Ltac Zify.zify_post_hook ::= Z.div_mod_to_equations.

Section Hand.
Context {SS RS X XO : Type}.
Notation dv := (dev SS RS X).
Notation ent := (@entry XO).
Variable step : dv -> ent -> dv -> Prop.
(** Lines the driver does not react to. *)
Variable noise : bytes -> Prop.

(** Calls that only look; interrupts happen during them. *)
Definition looks (o : dop XO) : bool :=
  match o with
  | OpIdle | OpIsConnected | OpIsIdle | OpBytesAvailable | OpSpaceAvailable | OpWriteBufferProcessed | OpGetRSSI => true
  | _ => false
  end.

(** The line a run() is to read: none, or one that answers. *)
Definition hears (p : option (bytes -> Prop)) (e : ent) : Prop :=
  match p with
  | None => forall tk L, ~ In (aLine tk L) (e_acts e)
  | Some q => exists tk L, In (aLine tk L) (e_acts e) /\ q L
  end.

(** A reply that begins with [w]. *)
Definition reply (w : bytes) : option (bytes -> Prop) := Some (fun L => prefixb w L = true).

(** A run() with at least [N] bytes of space in the transmit buffer. *)
Definition roomy (N : nat) (d : dv) (e : ent) : Prop := (exists oo, e_op e = OpRun oo) /\ txav (io d) + N <= txsz (io d).

(** A run() that has nothing to do with the reply [q]. *)
Definition aside (q : bytes -> Prop) (e : ent) : Prop := hears None e \/ hears (Some (fun L => noise L /\ ~ q L)) e.

(** The modem answers as in the list: each element stands for a run() that reads
    such a line, or none.  Before a line is read there may be any number of run()s
    that read none, or something else like an empty line or the echo of a command;
    calls that only look may come at any time.  Interrupts
    happen at any time, during the run()s as well. *)
Inductive dialogue (N : nat) : list (option (bytes -> Prop)) -> dv -> list ent -> dv -> Prop :=
| dl_end d : dialogue N [] d [] d
| dl_look ps d e d1 tr d' : step d e d1 -> looks (e_op e) = true -> dialogue N ps d1 tr d' -> dialogue N ps d (e :: tr) d'
| dl_idle q ps d e d1 tr d' : step d e d1 -> roomy N d e -> aside q e -> dialogue N (Some q :: ps) d1 tr d' ->
    dialogue N (Some q :: ps) d (e :: tr) d'
| dl_hear p ps d e d1 tr d' : step d e d1 -> roomy N d e -> hears p e -> dialogue N ps d1 tr d' ->
    dialogue N (p :: ps) d (e :: tr) d'.

(** The bytes sent to the modem. *)
Definition sent (tr : list ent) : bytes := concat (map (fun e => put (e_ev e)) tr).
(** Commands with their line ends. *)
Definition commands (l : list bytes) : bytes := concat (map (fun c => c ++ [CR; LF]) l).

(** Up to the run() that reads the next line, given that waiting changes nothing. *)
Lemma dialogue_next : forall N p ps d tr d' (K : dv -> Prop),
  (forall x e x', step x e x' -> looks (e_op e) = true -> K x -> K x' /\ put (e_ev e) = []) ->
  (forall q, p = Some q -> forall x e x', step x e x' -> roomy N x e -> aside q e -> K x -> K x' /\ put (e_ev e) = []) ->
  dialogue N (p :: ps) d tr d' -> K d ->
  exists tr1 e tr2 d1 d2, tr = tr1 ++ e :: tr2 /\ sent tr1 = [] /\ K d1 /\ step d1 e d2 /\ roomy N d1 e /\ hears p e /\ dialogue N ps d2 tr2 d'.
Proof.
  intros N p ps d tr d' K HL HI Hd. remember (p :: ps) as l eqn:El. revert El.
  induction Hd as [|l d e d1 tr d' Hs He Hd IH|q l d e d1 tr d' Hs He Hh Hd IH|p0 l d e d1 tr d' Hs He Hh Hd IH]; intros El HK; [discriminate| | |].
  - destruct (HL _ _ _ Hs He HK) as [HK1 Hp]. destruct (IH El HK1) as (tr1 & e1 & tr2 & x1 & x2 & E & Hse & R). exists (e :: tr1), e1, tr2, x1, x2.
    split; [rewrite E; reflexivity|]. split; [|exact R]. unfold sent in *. cbn [map concat]. rewrite Hp. exact Hse.
  - injection El as <- <-. destruct (HI q eq_refl _ _ _ Hs He Hh HK) as [HK1 Hp].
    destruct (IH eq_refl HK1) as (tr1 & e1 & tr2 & x1 & x2 & E & Hse & R). exists (e :: tr1), e1, tr2, x1, x2.
    split; [rewrite E; reflexivity|]. split; [|exact R]. unfold sent in *. cbn [map concat]. rewrite Hp. exact Hse.
  - injection El as -> ->. exists [], e, tr, d, d1. splits; auto.
Qed.

Lemma dialogue_end : forall N d tr d' (K : dv -> Prop),
  (forall x e x', step x e x' -> looks (e_op e) = true -> K x -> K x' /\ put (e_ev e) = []) ->
  dialogue N [] d tr d' -> K d -> sent tr = [] /\ K d'.
Proof.
  intros N d tr d' K HL Hd. remember (@nil (option (bytes -> Prop))) as ps eqn:El. revert El.
  induction Hd as [|l d e d1 tr d' Hs He Hd IH|q l d e d1 tr d' Hs He Hh Hd IH|p0 l d e d1 tr d' Hs He Hh Hd IH]; intros El HK; try discriminate.
  - split; [reflexivity|exact HK].
  - destruct (HL _ _ _ Hs He HK) as [HK1 Hp]. destruct (IH El HK1) as [Hse R]. split; [|exact R]. unfold sent in *. cbn [map concat]. rewrite Hp. exact Hse.
Qed.

Lemma sent_app : forall a b, sent (a ++ b) = sent a ++ sent b.
Proof. intros. unfold sent. rewrite map_app, concat_app. reflexivity. Qed.
Lemma sent_cons : forall e l, sent (e :: l) = put (e_ev e) ++ sent l.
Proof. reflexivity. Qed.
End Hand.

(** What reading leaves alone: [keep], and the number of bytes announced. *)
Definition keepw {SS RS X} (d d' : dev SS RS X) : Prop := keep d d' /\ toWrite d' = toWrite d.
Lemma ilab_keepw : forall SS RS X (Sh : shape SS RS X) d r d' a,
  ilab (sh_insend Sh) (sh_whole Sh) (sh_part Sh) (sh_clears Sh) d r d' a -> keepw d d'.
Proof. intros SS RS X Sh d r d' a H. split; destruct H; assumption. Qed.

Lemma wroteb_quiet : forall y y1 y2 c, quiet y y1 -> wroteb y1 y2 c -> wroteb y y2 c.
Proof.
  intros y y1 y2 c Q (p & I & L & R). apply quiet_ioeff in Q. exists p. split; [exact (ioeff_trans _ _ _ _ _ _ _ Q I)|]. split; [exact L|].
  intro H. apply R. pose proof (ioeff_av _ _ _ _ Q) as [_ A]. pose proof (ioeff_txsz _ _ _ _ Q). cbn [length] in A. lia.
Qed.
Lemma wroteb_ioeff : forall y y1 y2 c, ioeff y y1 [] [] -> wroteb y1 y2 c -> wroteb y y2 c.
Proof.
  intros y y1 y2 c Q (p & I & L & R). exists p. split; [exact (ioeff_trans _ _ _ _ _ _ _ Q I)|]. split; [exact L|].
  intro H. apply R. pose proof (ioeff_av _ _ _ _ Q) as [_ A]. pose proof (ioeff_txsz _ _ _ _ Q). cbn [length] in A. lia.
Qed.
Lemma wroteb_nil : forall y y', ioeff y y' [] [] -> wroteb y y' [].
Proof. intros y y' H. exists []. splits; auto. Qed.

(** What the second half of a run() puts on the line, from what the code wrote. *)
Lemma olab_put : forall SS RS X (isok : RS -> bool) says tail ins ch (d d' : dev SS RS X) b t q,
  (forall z, olab isok says tail ins ch d d' z -> exists ev, sstep (io d) (io d') ev /\ put ev = act_put z) ->
  olab isok says tail ins ch d d' b -> ioeff (io d) (io d') t q -> act_put b = q.
Proof.
  intros SS RS X isok says tail ins ch d d' b t q H Ho Hi. destruct (H b Ho) as (ev & S1 & P1). destruct (ioeff_ev _ _ _ _ Hi) as (ev2 & S2 & _ & P2 & _).
  apply sstep_log in S1, S2. rewrite S1 in S2. apply app_inv_head in S2. congruence.
Qed.

Lemma dok_quiet : forall SS RS X (d : dev SS RS X) y, dok d -> quiet (io d) y -> dok (set_io y d).
Proof.
  intros SS RS X d y (H1 & H2 & H3 & H) Q. apply quiet_ioeff in Q. destruct (ioeff_caps _ _ _ _ Q) as [C1 C2].
  split; [exact (ioeff_wf _ _ _ _ Q)|]. cbn [io set_io]. rewrite C1, C2. split; [exact H2|]. split; [exact H3|]. exact H.
Qed.

(** A call that only looks changes nothing but the port. *)
Lemma looked : forall SS RS X XO (D : driver SS RS X XO) o sch d out ev d', d_step D o sch d = Ok (out, ev, d') -> looks o = true ->
  d' = set_io (io d') d.
Proof.
  intros SS RS X XO D o sch d out ev d' H Ho. unfold d_step in H.
  assert (E : exists v, d_call D o (set_io (mkSys (ser (io d)) sch []) d) = Ok (v, set_io (mkSys (ser (io d)) sch []) d)).
  { destruct o; try discriminate Ho; eexists; reflexivity. }
  destruct E as [v E]. rewrite E in H. cbn [bind] in H. destruct (run_isrs _ _) as [[s e]|u]; [|discriminate H]. cbn [bind] in H.
  injection H as _ _ <-. destruct d; reflexivity.
Qed.
Lemma looked_put : forall XO (o : dop XO) out l t p, call_io o out l t p -> looks o = true -> p = [].
Proof. intros XO o out l t p H Ho. destruct o; try discriminate Ho; apply H. Qed.

Lemma ok_inj : forall A (x y : A), Ok x = Ok y -> x = y.
Proof. congruence. Qed.
