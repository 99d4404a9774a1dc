(** Whole sessions: connections opened and closed again, data written, fetched and read in
    between, in any number. *)
From Coq Require Import String Ascii ZArith List Bool Arith Lia.
From Verif Require Import Base QueueSpec LineSpec SerialSpec Ring RingProofs LineRing LineRingProofs Serial SerialProofs
  SerStep TaskMacros CStr CStrProofs Dev DevProofs DevProps SimDev SimProofs SimSpec SimParse SimLog Sym DrvStep DrvCommon DrvRun DrvHist DrvActs DrvHand DrvFetch.
Import ListNotations.
Local Open Scope nat_scope.

(** What the program and the modem do together: a connection is opened (the modem may
    resolve the host's name to an address), [w] is written and sent, [n] bytes are
    reported and fetched, [b] is read, a run() finds nothing to do, the connection is closed. *)
Inductive deal : Type :=
| Connect (address : bytes) | Write (w : bytes) | Fetch (n : Z) | Read (b : bytes) | Idle | Disconnect.
Definition reads (i : deal) : bytes := match i with Read b => b | _ => [] end.
Definition fetched (i : deal) : Z := match i with Fetch n => n | _ => 0%Z end.
(** Connected afterwards? [None]: out of place. *)
Definition follows (c : bool) (i : deal) : option bool :=
  match i, c with
  | Connect _, false => Some true
  | Disconnect, true => Some false
  | Write _, true | Fetch _, true => Some true
  | Read _, c | Idle, c => Some c
  | _, _ => None
  end.

Section Sessions.
Context {SS RS X XO : Type}.
Local Notation dv := (dev SS RS X).
Local Notation ent := (@entry XO).
Variable step : dv -> ent -> dv -> Prop.

(** A property kept by the run()s of a dialogue, given the kind of lines it contains. *)
Lemma dialogue_keeps : forall (noise h : bytes -> Prop) N (K : dv -> Prop),
  (forall L, noise L -> h L) ->
  (forall x e x', step x e x' -> looks (e_op e) = true -> K x -> K x' /\ payload e = []) ->
  (forall x e x', step x e x' -> roomy N x e -> hears None e \/ hears (Some h) e -> K x -> K x' /\ payload e = []) ->
  forall ps d tr d', dialogue step noise N ps d tr d' -> Forall (fun p : option (bytes -> Prop) => match p with Some q => forall L, q L -> h L | None => True end) ps ->
  K d -> K d' /\ payloads tr = [].
Proof.
  intros noise h N K Hn Hlook Hrun ps d tr d' Hd.
  induction Hd as [d|ps d e d1 tr d' Hs Hl Hd IH|q ps d e d1 tr d' Hs Hr Ha Hd IH|p ps d e d1 tr d' Hs Hr Hh Hd IH]; intros HF HK.
  - auto.
  - destruct (Hlook _ _ _ Hs Hl HK) as [K1 P1]. rewrite payloads_cons, P1. exact (IH HF K1).
  - assert (Hh : hears None e \/ hears (Some h) e) by (destruct Ha as [Ha|(tk & L & Hin & HL & _)]; [left; exact Ha|right; exists tk, L; auto]).
    destruct (Hrun _ _ _ Hs Hr Hh HK) as [K1 P1]. rewrite payloads_cons, P1. exact (IH HF K1).
  - apply Forall_cons_iff in HF as [Hp HF].
    assert (Hh2 : hears None e \/ hears (Some h) e) by (destruct p as [q|]; [destruct Hh as (tk & L & Hin & HL); right; exists tk, L; auto|left; exact Hh]).
    destruct (Hrun _ _ _ Hs Hr Hh2 HK) as [K1 P1]. rewrite payloads_cons, P1. exact (IH HF K1).
Qed.

(** A property kept by all run()s. *)
Lemma dialogue_each : forall (noise : bytes -> Prop) N (K : dv -> Prop),
  (forall x e x', step x e x' -> looks (e_op e) = true \/ (exists oo, e_op e = OpRun oo) -> K x -> K x') ->
  forall ps d tr d', dialogue step noise N ps d tr d' -> K d -> K d'.
Proof.
  intros noise N K H ps d tr d' Hd.
  induction Hd as [d|ps d e d1 tr d' Hs Hl Hd IH|q ps d e d1 tr d' Hs Hr Ha Hd IH|p ps d e d1 tr d' Hs Hr Hh Hd IH]; intro HK; auto; apply IH; apply (H d e d1 Hs); auto; right; apply Hr.
Qed.
Lemma chunks_each : forall (noise : bytes -> Prop) N hdr (K : dv -> Prop),
  (forall x e x', step x e x' -> looks (e_op e) = true \/ (exists oo, e_op e = OpRun oo) -> K x -> K x') ->
  forall d ms tr d', chunks step noise N hdr d ms tr d' -> K d -> K d'.
Proof.
  intros noise N hdr K H d ms tr d' Hc. induction Hc as [d|d e d1 m ms tr d2 tr2 d' Hs Hr Hh He Hd Hc IH]; intro HK; auto.
  apply IH. apply (dialogue_each noise N K H _ _ _ _ Hd). apply (H d e d1 Hs); auto. right. apply Hr.
Qed.

(** A property kept by the run()s that read nothing or certain lines. *)
Lemma dialogue_kind : forall (noise h : bytes -> Prop) N (K : dv -> Prop),
  (forall L, noise L -> h L) ->
  (forall x e x', step x e x' -> looks (e_op e) = true -> K x -> K x') ->
  (forall x e x', step x e x' -> roomy N x e -> hears None e \/ hears (Some h) e -> K x -> K x') ->
  forall ps d tr d', dialogue step noise N ps d tr d' -> Forall (fun p : option (bytes -> Prop) => match p with Some q => forall L, q L -> h L | None => True end) ps ->
  K d -> K d'.
Proof.
  intros noise h N K Hn Hlook Hrun ps d tr d' Hd.
  induction Hd as [d|ps d e d1 tr d' Hs Hl Hd IH|q ps d e d1 tr d' Hs Hr Ha Hd IH|p ps d e d1 tr d' Hs Hr Hh Hd IH]; intros HF HK.
  - auto.
  - exact (IH HF (Hlook _ _ _ Hs Hl HK)).
  - apply (IH HF). apply (Hrun _ _ _ Hs Hr); [|exact HK]. destruct Ha as [Ha|(tk & L & Hin & HL & _)]; [left; exact Ha|right; exists tk, L; auto].
  - apply Forall_cons_iff in HF as [Hp HF]. apply (IH HF). apply (Hrun _ _ _ Hs Hr); [|exact HK].
    destruct p as [q|]; [destruct Hh as (tk & L & Hin & HL); right; exists tk, L; auto|left; exact Hh].
Qed.
Lemma chunks_kind : forall (noise h : bytes -> Prop) N (hdr : Z -> option (bytes -> Prop)) (K : dv -> Prop),
  (forall L, noise L -> h L) ->
  (forall x e x', step x e x' -> looks (e_op e) = true -> K x -> K x') ->
  (forall x e x', step x e x' -> roomy N x e -> hears None e \/ hears (Some h) e -> K x -> K x') ->
  (forall m, match hdr m with Some q => forall L : bytes, q L -> h L | None => True end) -> (forall L, prefixb (bs "OK") L = true -> h L) ->
  forall d ms tr d', chunks step noise N hdr d ms tr d' -> K d -> K d'.
Proof.
  intros noise h N hdr K Hn Hlook Hrun Hm Ho d ms tr d' Hc. induction Hc as [d|d e d1 m ms tr d2 tr2 d' Hs Hr Hh He Hd Hc IH]; intro HK; auto.
  apply IH. apply (dialogue_kind noise h N K Hn Hlook Hrun _ _ _ _ Hd); [|exact (Hrun _ _ _ Hs Hr (or_introl Hh) HK)].
  apply Forall_cons; [exact (Hm m)|]. apply Forall_cons; [exact Ho|]. apply Forall_nil.
Qed.

(** Up to the first run(), which reads no line. *)
Lemma dialogue_first : forall (noise : bytes -> Prop) N ps d tr d',
  (forall x e x', step x e x' -> looks (e_op e) = true -> x' = set_io (io x') x /\ put (e_ev e) = [] /\ payload e = []) ->
  dialogue step noise N (None :: ps) d tr d' ->
  exists tr1 e tr2 y x2, tr = tr1 ++ e :: tr2 /\ sent tr1 = [] /\ payloads tr1 = [] /\ step (set_io y d) e x2 /\ roomy N (set_io y d) e /\ hears None e /\
    dialogue step noise N ps x2 tr2 d'.
Proof.
  intros noise N ps d tr d' HL Hd.
  destruct (dialogue_till step noise N None ps d tr d' (fun s t z => s = [] /\ t = [] /\ exists y, z = set_io y d)) with (s := @nil ascii) (t := @nil ascii)
    as (tr1 & e1 & tr2 & x1 & x2 & Et & (T1 & T2 & y & Ex) & Hs1 & Hr1 & Hh1 & Hd1); auto.
  - intros s t z e0 z' H0 Hl (-> & -> & y & ->). destruct (HL _ _ _ H0 Hl) as (Ez & Hz & Hz2). splits; auto. exists (io z'). exact Ez.
  - discriminate.
  - splits; auto. exists (io d). destruct d; reflexivity.
  - cbn [app] in T1, T2. subst x1. exists tr1, e1, tr2, y, x2. splits; auto.
Qed.

End Sessions.

Section Deals.
Context {SS RS X XO : Type}.
Local Notation dv := (dev SS RS X).
Local Notation ent := (@entry XO).
Variable does : dv -> deal -> list ent -> dv -> Prop.
(** Sessions, beginning connected or not. *)
Inductive session : bool -> dv -> list deal -> list ent -> dv -> bool -> Prop :=
| se_end c d : session c d [] [] d c
| se_next c d i c1 tr d1 l tr' d' c' : follows c i = Some c1 -> does d i tr d1 -> session c1 d1 l tr' d' c' -> session c d (i :: l) (tr ++ tr') d' c'.

Lemma session_all : forall (At : bool -> dv -> Prop) (says : deal -> bytes -> Prop),
  (forall c i c1 d tr d1, follows c i = Some c1 -> does d i tr d1 -> At c d ->
     At c1 d1 /\ says i (sent tr) /\ reads i ++ contents (rbuf d1) = contents (rbuf d) ++ payloads tr /\ Z.of_nat (length (payloads tr)) = fetched i) ->
  forall c d l tr d' c', session c d l tr d' c' -> At c d ->
    At c' d' /\ (exists ss, sent tr = concat ss /\ Forall2 says l ss) /\
    concat (map reads l) ++ contents (rbuf d') = contents (rbuf d) ++ payloads tr /\
    Z.of_nat (length (payloads tr)) = fold_right Z.add 0%Z (map fetched l).
Proof.
  intros At says H c d l tr d' c' Hs. induction Hs as [c d|c d i c1 tr d1 l tr' d' c' Hf Hd Hs IH]; intro HA.
  - split; [exact HA|]. split; [exists []; split; [reflexivity|constructor]|]. cbn. rewrite app_nil_r. auto.
  - destruct (H _ _ _ _ _ _ Hf Hd HA) as (A1 & S1 & B1 & L1). destruct (IH A1) as (A2 & (ss & E & F) & B2 & L2).
    split; [exact A2|]. split; [exists (sent tr :: ss); rewrite sent_app, E; split; [reflexivity|constructor; assumption]|].
    rewrite payloads_app, app_length. cbn [map concat fold_right]. split; [|lia].
    rewrite <- app_assoc, B2, app_assoc, B1, app_assoc. reflexivity.
Qed.

(** The same with the address of the peer: the one of the last connection. *)
Definition reached (a : bytes) (i : deal) : bytes := match i with Connect b => b | _ => a end.
Fixpoint addressed (a : bytes) (l : list deal) : list (bytes * deal) :=
  match l with [] => [] | i :: l' => (reached a i, i) :: addressed (reached a i) l' end.
Lemma session_along : forall (At : bool -> bytes -> dv -> Prop) (says : bytes -> deal -> bytes -> Prop),
  (forall c a i c1 d tr d1, follows c i = Some c1 -> does d i tr d1 -> At c a d ->
     At c1 (reached a i) d1 /\ says (reached a i) i (sent tr) /\ reads i ++ contents (rbuf d1) = contents (rbuf d) ++ payloads tr /\ Z.of_nat (length (payloads tr)) = fetched i) ->
  forall c d l tr d' c', session c d l tr d' c' -> forall a, At c a d ->
    At c' (fold_left reached l a) d' /\ (exists ss, sent tr = concat ss /\ Forall2 (fun p => says (fst p) (snd p)) (addressed a l) ss) /\
    concat (map reads l) ++ contents (rbuf d') = contents (rbuf d) ++ payloads tr /\
    Z.of_nat (length (payloads tr)) = fold_right Z.add 0%Z (map fetched l).
Proof.
  intros At says H c d l tr d' c' Hs. induction Hs as [c d|c d i c1 tr d1 l tr' d' c' Hf Hd Hs IH]; intros a HA.
  - split; [exact HA|]. split; [exists []; split; [reflexivity|constructor]|]. cbn. rewrite app_nil_r. auto.
  - destruct (H _ _ _ _ _ _ _ Hf Hd HA) as (A1 & S1 & B1 & L1). destruct (IH _ A1) as (A2 & (ss & E & F) & B2 & L2).
    split; [exact A2|]. split; [exists (sent tr :: ss); rewrite sent_app, E; split; [reflexivity|constructor; assumption]|].
    rewrite payloads_app, app_length. cbn [map concat fold_right]. split; [|lia].
    rewrite <- app_assoc, B2, app_assoc, B1, app_assoc. reflexivity.
Qed.
End Deals.

(** Calls that only set or look at something neither send nor receive. *)
Definition modest_call {XO} (o : dop XO) : bool := match o with OpRun _ | OpSerialRead _ | OpSerialWrite _ => false | _ => true end.
Lemma call_silent : forall SS RS X XO (D : driver SS RS X XO) (Sh : shape SS RS X) Inv goodx (d : dev SS RS X) e d', estep D Sh Inv goodx d e d' ->
  modest_call (e_op e) = true -> payload e = [] /\ put (e_ev e) = [].
Proof.
  intros SS RS X XO D Sh Inv goodx d e d' Hs Hm. destruct Hs as (_ & _ & _ & _ & _ & _ & Hio & _ & z & Hc & _). unfold callrel in Hc. unfold call_io in Hio. unfold payload.
  destruct (e_op e); try discriminate Hm; destruct Hc as [-> _]; destruct Hio as [_ ->]; auto.
Qed.

Lemma empty_avail : forall r : ring ascii, ring_ok r -> contents r = [] -> avail r = 0.
Proof. intros r H E. pose proof (contents_length r (proj1 H)) as L. rewrite E in L. cbn in L. lia. Qed.
Lemma read_keeps : forall SS RS X XO (D : driver SS RS X XO) sch d n out ev d', ring_ok (rbuf d) -> d_step D (OpRead n) sch d = Ok (out, ev, d') ->
  out = DData (firstn n (contents (rbuf d))) (Nat.min n (avail (rbuf d))) /\ contents (rbuf d') = skipn n (contents (rbuf d)) /\ ring_ok (rbuf d') /\
  d' = set_rbuf (rbuf d') (set_io (io d') d).
Proof.
  intros SS RS X XO D sch d n out ev d' Hok H. destruct (C31_read _ _ _ _ _ _ _ _ _ _ _ Hok H) as (A1 & A2 & A3). splits; auto.
  destruct (ring_pull_many_wf (rbuf d) n (proj1 Hok)) as (r & Er & _ & _ & _ & Hc & Ho).
  assert (E : d_call D (OpRead n) (during sch d) =
     Ok (DData (firstn n (contents (rbuf d))) (Nat.min n (avail (rbuf d))), set_rbuf r (during sch d))).
  { cbn [d_call]. unfold ip_read. change (rbuf (during sch d)) with (rbuf d). rewrite Er. reflexivity. }
  destruct (step_pure _ _ _ _ _ _ _ _ _ E H) as [_ ->]. exact (Ho Hok).
Qed.

(** Computations that succeed. *)
Ltac crack E := repeat first
  [ match type of E with bind ?m _ = Ok _ => let q := fresh "q" in destruct m as [q|] eqn:?; [|discriminate E]; cbn [bind] in E end
  | match type of E with (let (_, _) := ?p in _) = Ok _ => let u := fresh "u" in destruct p as [u ?] end
  | match type of E with (if ?b then _ else _) = Ok _ => destruct b end
  | match type of E with (match ?b with _ => _ end) = Ok _ => destruct b end
  | match type of E with Ok _ = Ok _ => injection E; clear E; intros; subst end ].
