(** Modem detection: C60, C61 and C62. *)
From Coq Require Import String Ascii ZArith Bool List Arith Lia ZifyBool ZifyNat.
From Verif Require Import Base QueueSpec LineSpec SerialSpec Ring RingProofs LineRing LineRingProofs Serial SerialProofs TaskMacros CStr CStrProofs Dev SimDev Sim7x00 Sim800 Espressif Cc1352 Detect DetectProofs.
Import ListNotations.
Local Open Scope nat_scope.
Ltac Zify.zify_post_hook ::= Z.div_mod_to_equations.

(** ** Vocabulary: what a history shows *)

(** [after A B h]: some call is an [A] and [B] holds of the later ones. *)
Definition after (A : mcall -> Prop) (B : list mcall -> Prop) (h : list mcall) : Prop := exists h1 e h2, h = h1 ++ e :: h2 /\ A e /\ B h2.
(** The same, [B] including the call itself. *)
Definition from (A : mcall -> Prop) (B : list mcall -> Prop) (h : list mcall) : Prop := exists h1 e h2, h = h1 ++ e :: h2 /\ A e /\ B (e :: h2).
Definition some (A : mcall -> Prop) (h : list mcall) : Prop := exists e, In e h /\ A e.
Definition any (h : list mcall) : Prop := True.

Definition is_run (e : mcall) : Prop := match c_op e with MRun _ => True | _ => False end.
Definition is_start (e : mcall) : Prop := c_op e = MStart.
(** A run() that cleared what had been received and asked for the model. *)
Definition asked (e : mcall) : Prop := is_run e /\ In EvFlushed (c_ev e) /\ exists n r, put (c_ev e) = firstn n (bs "AT+CGMM" ++ CRLF) ++ r.
(** A run() that took a line starting with [lit] from the port. *)
Definition reply (lit : bytes) (e : mcall) : Prop := is_run e /\ exists r, taken (c_ev e) = lit ++ r.

Definition model_seen (lit : bytes) : list mcall -> Prop := after is_start (from asked (some (reply lit))).
Definition version (e : mcall) : Prop := reply (bs "AT version:1.7") e \/ reply (bs "AT version:2.1") e.
Definition espressif_seen : list mcall -> Prop :=
  after is_start (from asked (after (reply (bs "ERROR")) (after version (some (reply (bs "OK" ++ CRLF)))))).

(** ** The history behind each state *)

Lemma after_snoc : forall A (B B' : list mcall -> Prop) h e, (forall g, B g -> B' (g ++ [e])) -> after A B h -> after A B' (h ++ [e]).
Proof. intros A B B' h e H (h1 & x & h2 & -> & HA & HB). exists h1, x, (h2 ++ [e]). rewrite <- app_assoc. auto. Qed.
Lemma from_snoc : forall A (B B' : list mcall -> Prop) h e, (forall g, B g -> B' (g ++ [e])) -> from A B h -> from A B' (h ++ [e]).
Proof. intros A B B' h e H (h1 & x & h2 & -> & HA & HB). exists h1, x, (h2 ++ [e]). rewrite <- app_assoc. split; [reflexivity|]. split; [exact HA|]. apply (H _ HB). Qed.
Lemma some_snoc : forall A h e, some A h -> some A (h ++ [e]).
Proof. intros A h e (x & Hi & HA). exists x. split; [apply in_or_app; left; exact Hi|exact HA]. Qed.
Lemma some_new : forall (A : mcall -> Prop) h e, A e -> some A (h ++ [e]).
Proof. intros A h e HA. exists e. split; [apply in_elt|exact HA]. Qed.
Lemma after_new : forall (A : mcall -> Prop) h e, A e -> after A any (h ++ [e]).
Proof. intros A h e HA. exists h, e, []. split; [reflexivity|]. split; [exact HA|exact I]. Qed.
Lemma from_new : forall (A : mcall -> Prop) (B : list mcall -> Prop) h e, A e -> B [e] -> from A B (h ++ [e]).
Proof. intros A B h e HA HB. exists h, e, []. auto. Qed.
Lemma any_snoc : forall e g, any g -> any (g ++ [e]). Proof. intros; exact I. Qed.

Definition behind (st : dstate) (h : list mcall) : Prop :=
  match st with
  | dNone | dError => True
  | dBegin => after is_start any h
  | dCgmm => after is_start (from asked any) h
  | dGmr => after is_start (from asked (after (reply (bs "ERROR")) any)) h
  | dWaitOk => after is_start (from asked (after (reply (bs "ERROR")) (after version any))) h
  | dDetected => False
  | dSim800 => model_seen (bs "SIMCOM_SIM800") h
  | dSim7x00 => model_seen (bs "SIMCOM_SIM7600") h
  | dCc1352 => model_seen (bs "CC1352P7") h
  | dEspressif => espressif_seen h
  end.
Lemma behind_snoc : forall st h e, behind st h -> behind st (h ++ [e]).
Proof.
  intros st h e H. destruct st; cbn [behind] in *; auto; unfold model_seen, espressif_seen in *;
    repeat first [ apply any_snoc | apply some_snoc | (eapply after_snoc; [|exact H]; clear H; intros ? H) | (eapply from_snoc; [|exact H]; clear H; intros ? H) ]; exact H.
Qed.
Definition kind_ok (v : modem) (st : dstate) : Prop :=
  match v with M800 _ => st = dSim800 | M7x00 _ => st = dSim7x00 | MEsp _ => st = dEspressif | MCc _ => st = dCc1352 end.
Definition J (h : list mcall) (m : detect) : Prop :=
  behind (mstate m) h /\ (mstart m = true -> after is_start any h) /\
  match mdrv m with None => exists q t, serial_is (ser (mio m)) q t | Some v => kind_ok v (mstate m) end.

Lemma modem_step_kind : forall P o sch v out ev v' st, modem_step P o sch v = Ok (out, ev, v') -> kind_ok v st -> kind_ok v' st.
Proof.
  intros P o sch v out ev v' st H K. destruct o as [o|o|o|o], v as [d|d|d|d]; cbn [modem_step] in H; try discriminate;
    (destruct (d_step _ o sch d) as [[[a b] d1]|]; cbn [bind] in H; [|discriminate]);
    match type of H with Ok (_, _, ?w) = _ => assert (Ev : v' = w) by congruence end; subst v'; exact K.
Qed.
Lemma last_run_kind : forall t v st, kind_ok v st -> kind_ok (modem_last_run t v) st.
Proof. intros t [d|d|d|d] st K; exact K. Qed.

Lemma prefixb_taken : forall lit cs r, prefixb lit cs = true -> exists r', cs ++ r = lit ++ r'.
Proof. intros lit cs r H. apply prefixb_spec in H as [x ->]. exists (x ++ r). rewrite <- app_assoc. reflexivity. Qed.

Definition first_ok (st : dstate) (h : list mcall) (e : mcall) : Prop :=
  match st with
  | dCgmm => after is_start (from asked any) h \/ after is_start any h /\ asked e
  | _ => behind st h
  end.
(** From the state after the first switch to the state after the line. *)
Lemma next_behind : forall st h e cs r, is_run e -> taken (c_ev e) = cs ++ r -> st <> dDetected ->
  first_ok st h e -> behind (d_next st cs) (h ++ [e]).
Proof.
  unfold first_ok. intros st h e cs r Hr Ht Hd H.
  assert (R : forall lit, prefixb lit cs = true -> reply lit e) by (intros lit Hp; split; [exact Hr|]; rewrite Ht; apply prefixb_taken; exact Hp).
  assert (G : forall B : list mcall -> Prop, (forall g, B (g ++ [e])) -> (after is_start (from asked any) h \/ after is_start any h /\ asked e) ->
    after is_start (from asked B) (h ++ [e])).
  { intros B HB [K|[K Ka]].
    - eapply after_snoc; [|exact K]. intros g Kg. eapply from_snoc; [|exact Kg]. intros g' _. apply HB.
    - eapply after_snoc; [|exact K]. intros g _. apply from_new; [exact Ka|]. apply (HB []). }
  destruct st; cbn [d_next]; try (apply behind_snoc; exact H).
  - (* waiting for the model *)
    destruct (prefixb (bs "SIMCOM_SIM800") cs) eqn:P1; [cbn [behind]; apply G; [intro g; apply some_new; apply R; exact P1|exact H]|].
    destruct (prefixb (bs "SIMCOM_SIM7600") cs) eqn:P2; [cbn [behind]; apply G; [intro g; apply some_new; apply R; exact P2|exact H]|].
    destruct (prefixb (bs "CC1352P7") cs) eqn:P3; [cbn [behind]; apply G; [intro g; apply some_new; apply R; exact P3|exact H]|].
    destruct (prefixb (bs "ERROR") cs) eqn:P4; [cbn [behind]; apply G; [intro g; apply after_new; apply R; exact P4|exact H]|].
    cbn [behind]. apply G; [intro g; exact I|exact H].
  - (* waiting for the version *)
    destruct (prefixb (bs "AT version:1.7") cs || prefixb (bs "AT version:2.1") cs) eqn:P1; [|apply behind_snoc; exact H].
    cbn [behind] in *. eapply after_snoc; [|exact H]. clear H. intros g H. eapply from_snoc; [|exact H]. clear H. intros g' H. eapply after_snoc; [|exact H].
    intros g'' _. apply after_new. apply orb_prop in P1 as [P1|P1]; [left|right]; apply R; exact P1.
  - destruct (prefixb (bs "OK" ++ CRLF) cs) eqn:P1; [|apply behind_snoc; exact H].
    cbn [behind] in *. unfold espressif_seen. eapply after_snoc; [|exact H]. clear H. intros g H. eapply from_snoc; [|exact H]. clear H. intros g' H. eapply after_snoc; [|exact H].
    clear H. intros g'' H. eapply after_snoc; [|exact H]. intros g3 _. apply some_new. apply R. exact P1.
Qed.

Lemma serial_is_run : forall is s q t, serial_is s q t -> exists s' ev, run_isrs s is = Ok (s', ev) /\ (exists q' t', serial_is s' q' t') /\ Forall isr_ev ev.
Proof. intros is s q t H. destruct (run_isrs_is is s q t H) as (s' & ev & a & k & E & H1 & _ & F & _). exists s', ev. split; [exact E|]. split; [eauto|exact F]. Qed.

(** One call keeps the record right. *)
Lemma J_step : forall P h m o sch out ev m', J h m -> m_step P o sch m = Ok (out, ev, m') -> J (h ++ [mkMcall o sch out ev]) m'.
Proof.
  intros P h m o sch out ev m' (Jb & Js & Jp) H. set (e := mkMcall o sch out ev).
  assert (Idle : forall m0 out0, mstate m0 = mstate m -> mdrv m0 = mdrv m -> mio m0 = mio m -> (mstart m0 = true -> after is_start any (h ++ [e])) ->
    match mdrv m0 with
    | None => let* (s, ev) := run_isrs (ser (mio m0)) (concat sch) in Ok (out0, ev, m_io (mkSys s [] []) m0)
    | Some v =>
        let* (_, ev, v) := modem_step P (match v with M800 _ => O800 OpIdle | M7x00 _ => O7x00 OpIdle | MEsp _ => OEsp OpIdle | MCc _ => OCc OpIdle end) sch v in
        Ok (out0, ev, mkDetect (mio m0) (mopen m0) (mstate m0) (mstart m0) (Some v) (mtask m0))
    end = Ok (out, ev, m') -> J (h ++ [e]) m').
  { intros m0 out0 E1 E2 E3 E4 K. rewrite E2 in K. destruct (mdrv m) as [v|] eqn:Ed.
    - destruct (modem_step P _ sch v) as [[[a b] v1]|] eqn:Em; cbn [bind] in K; [|discriminate].
      match type of K with Ok (_, _, ?w) = _ => assert (Ev : m' = w) by congruence end. subst m'. unfold J. cbn [mstate mstart mdrv]. rewrite E1.
      split; [apply behind_snoc; exact Jb|]. split; [exact E4|]. eapply modem_step_kind; eassumption.
    - destruct Jp as (q & t & Hq). destruct (serial_is_run (concat sch) _ _ _ Hq) as (s' & ev' & Er & Hs & _). rewrite E3, Er in K. cbn [bind] in K.
      match type of K with Ok (_, _, ?w) = _ => assert (Ev : m' = w) by congruence end. subst m'. unfold J. cbn [m_io mstate mstart mdrv mio ser]. rewrite E1, E2.
      split; [apply behind_snoc; exact Jb|]. split; [exact E4|exact Hs]. }
  assert (Keep : mstart m = true -> after is_start any (h ++ [e])) by (intro Hs; eapply after_snoc; [|exact (Js Hs)]; intros; exact I).
  unfold m_step in H. destruct o as [| | |oo| |rb wb w|o].
  - eapply (Idle m); eauto.
  - eapply (Idle (m_start m)); [reflexivity|reflexivity|reflexivity| |exact H]. intros _. apply after_new. reflexivity.
  - eapply (Idle m); eauto.
  - destruct (mdrv m) as [v|] eqn:Ed.
    + destruct (modem_step P (run_op oo v) sch v) as [[[a b] v1]|] eqn:Em; cbn [bind] in H; [|discriminate].
      match type of H with Ok (_, _, ?w) = _ => assert (Ev : m' = w) by congruence end. subst m'. unfold J. cbn [mstate mstart mdrv].
      split; [apply behind_snoc; exact Jb|]. split; [exact Keep|]. apply last_run_kind. eapply modem_step_kind; eassumption.
    + destruct Jp as (q & t & Hq). set (m0 := m_io (mkSys (ser (mio m)) sch []) m) in *.
      destruct (mopen m) eqn:Eo.
      * destruct (run_step oo m0 q t Hq) as [[E _]|(m1 & ev1 & q1 & t1 & p1 & p2 & E & S & Sm & Pu & A & D)]; [exact Eo|rewrite E in H; discriminate|].
        rewrite E in H. cbn [bind] in H. destruct S as (Hs1 & _ & Lg & _). cbn [slog mio m_io m0] in Lg. cbn [app] in Lg.
        destruct (serial_is_run (concat (sched (mio m1))) _ _ _ Hs1) as (s' & ev' & Er & Hs & Fi). rewrite Er in H. cbn [bind] in H.
        destruct (isr_ev_quiet ev' Fi) as (Q1 & Q2 & _). rewrite Lg in H.
        assert (Ee : ev = ev1 ++ ev') by congruence. match type of H with Ok (_, _, ?w) = _ => assert (Ev : m' = w) by congruence end. subst m'.
        destruct Sm as (_ & Sm1 & Sm2). cbn [m_io mstart mdrv m0] in Sm1, Sm2.
        assert (Hrun : is_run e) by exact I.
        assert (Htk : taken (c_ev e) = taken ev1) by (cbn [c_ev e]; rewrite Ee, taken_app, Q1, app_nil_r; reflexivity).
        assert (Hask : mstate m = dBegin -> asked e).
        { intro Hb. split; [exact I|]. unfold asks in A. cbn [m_io mstate m0] in A. rewrite Hb in A. destruct A as ((n & A1 & _) & A2). cbn [c_ev e]. rewrite Ee.
          split; [apply in_or_app; left; exact A2|]. exists n, p2. rewrite put_app, Q2, app_nil_r, Pu, A1. reflexivity. }
        unfold J. cbn [m_io mstate mstart mdrv mio ser]. rewrite Sm1, Sm2, Ed. split; [|split; [exact Keep|exact Hs]].
        unfold st_first in D. cbn [m_io mstate mstart m0] in D.
        assert (Hfirst : first_ok (match mstate m with dNone => if mstart m then dBegin else dNone | dBegin => dCgmm | s => s end) h e).
        { unfold first_ok. destruct (mstate m) eqn:Es; cbn [behind] in *; auto. destruct (mstart m) eqn:Em; cbn [behind]; auto. }
        destruct D as [(D1 & D2 & _)|(cs & r & D1 & D2 & _)].
        -- rewrite D1. destruct (mstate m) eqn:Es; try (apply behind_snoc; exact Jb).
           ++ destruct (mstart m) eqn:Em; [apply behind_snoc; exact (Js eq_refl)|exact I].
           ++ cbn [behind] in *. eapply after_snoc; [|exact Jb]. intros g _. apply from_new; [auto|exact I].
        -- rewrite D2. apply (next_behind _ h e cs r Hrun); [rewrite Htk; exact D1| |exact Hfirst].
           destruct (mstate m) eqn:Es; try discriminate; try (destruct (mstart m); discriminate). destruct Jb.
      * assert (Em : m_run oo m0 = Ok (if oo then mkDetect (mio m0) true (mstate m0) (mstart m0) (mdrv m0) (mtask m0) else m_state dError m0))
          by (unfold m_run; cbn [m_io mopen m0]; rewrite Eo; reflexivity).
        rewrite Em in H. cbn [bind] in H.
        assert (Ei : mio (if oo then mkDetect (mio m0) true (mstate m0) (mstart m0) (mdrv m0) (mtask m0) else m_state dError m0) = mio m0) by (destruct oo; reflexivity).
        rewrite Ei in H. cbn [m_io mio ser sched slog m0] in H. destruct (serial_is_run (concat sch) _ _ _ Hq) as (s' & ev' & Er & Hs & _). rewrite Er in H. cbn [bind] in H.
        match type of H with Ok (_, _, ?w) = _ => assert (Ev : m' = w) by congruence end. subst m'.
        destruct oo; unfold J; cbn [m_io m_state mstate mstart mdrv mio ser m0]; rewrite Ed.
        -- split; [apply behind_snoc; exact Jb|]. split; [exact Keep|exact Hs].
        -- split; [exact I|]. split; [exact Keep|exact Hs].
  - destruct (mdrv m) as [v|] eqn:Ed.
    + destruct (modem_step P _ sch v) as [[[a b] v1]|] eqn:Em; cbn [bind] in H; [|discriminate].
      match type of H with Ok (_, _, ?w) = _ => assert (Ev : m' = w) by congruence end. subst m'. unfold J. cbn [mstate mstart mdrv].
      split; [apply behind_snoc; exact Jb|]. split; [exact Keep|]. eapply modem_step_kind; eassumption.
    + cbn [mdrv] in H. eapply (Idle (mkDetect (mio m) false (mstate m) (mstart m) None (mtask m))); [reflexivity|reflexivity|reflexivity|exact Keep|exact H].
  - destruct (run_isrs _ (concat sch)) as [[s ev0]|] eqn:Er; cbn [bind] in H; [|discriminate].
    destruct (m_construct s _ rb wb w (mstate m)) as [c|] eqn:Ec.
    + destruct c as [v|] eqn:Ev; cbn [bind] in H; [|discriminate]. match type of H with Ok (_, _, ?w) = _ => assert (Em : m' = w) by congruence end. subst m'.
      unfold J. cbn [mstate mstart mdrv]. split; [apply behind_snoc; exact Jb|]. split; [exact Keep|].
      unfold m_construct in Ec. destruct (mstate m); try discriminate; apply (f_equal (fun o => match o with Some x => x | None => UB NullDeref end)) in Ec; cbv beta iota in Ec;
        match type of Ec with bind ?x _ = _ => destruct x as [d|]; cbn [bind] in Ec; [|discriminate] end;
        match type of Ec with Ok ?x = _ => assert (E1 : v = x) by congruence end; subst v; reflexivity.
    + eapply (Idle m); eauto.
  - destruct (mdrv m) as [v|] eqn:Ed; [|discriminate].
    destruct (modem_step P o sch v) as [[[a b] v1]|] eqn:Em; cbn [bind] in H; [|discriminate].
    match type of H with Ok (_, _, ?w) = _ => assert (Ev : m' = w) by congruence end. subst m'. unfold J. cbn [mstate mstart mdrv].
    split; [apply behind_snoc; exact Jb|]. split; [exact Keep|]. eapply modem_step_kind; eassumption.
Qed.
Lemma J_hist : forall P m h m', m_hist P m h m' -> forall h0, J h0 m -> J (h0 ++ h) m'.
Proof.
  intros P m h m' H. induction H as [m|m o sch out ev m1 h m2 Hs Hh IH]; intros h0 HJ; [rewrite app_nil_r; exact HJ|].
  specialize (IH (h0 ++ [mkMcall o sch out ev])). rewrite <- app_assoc in IH. apply IH. eapply J_step; eassumption.
Qed.
Lemma J_new : forall s opened q t, serial_is s q t -> J [] (detect_new s opened).
Proof. intros s opened q t H. unfold J. cbn [detect_new mstate mstart mdrv mio ser behind]. split; [exact I|]. split; [discriminate|]. eauto. Qed.

(** ** C60 *)

(** modemDetected() only after the complete exchange, and the driver constructed
    is the one for the modem that answered. *)
Theorem C60_detected : forall P s opened q t h m, serial_is s q t -> m_hist P (detect_new s opened) h m -> m_detected m = true ->
  model_seen (bs "SIMCOM_SIM800") h \/ model_seen (bs "SIMCOM_SIM7600") h \/ model_seen (bs "CC1352P7") h \/ espressif_seen h.
Proof.
  intros P s opened q t h m Hs Hh Hd. destruct (J_hist P _ h m Hh [] (J_new s opened q t Hs)) as (Jb & _). cbn [app] in Jb.
  unfold m_detected in Hd. destruct (mstate m); try discriminate; cbn [behind] in Jb; tauto.
Qed.
Theorem C60_driver : forall P s opened q t h m v, serial_is s q t -> m_hist P (detect_new s opened) h m -> mdrv m = Some v ->
  match v with
  | M800 _ => model_seen (bs "SIMCOM_SIM800") h
  | M7x00 _ => model_seen (bs "SIMCOM_SIM7600") h
  | MEsp _ => espressif_seen h
  | MCc _ => model_seen (bs "CC1352P7") h
  end.
Proof.
  intros P s opened q t h m v Hs Hh Hv. destruct (J_hist P _ h m Hh [] (J_new s opened q t Hs)) as (Jb & _ & Jp). cbn [app] in Jb.
  rewrite Hv in Jp. destruct v; cbn [kind_ok] in Jp; rewrite Jp in Jb; exact Jb.
Qed.

(** The questions are sent in full if the transmit buffer has room for them. *)
Theorem C60_asks : forall P m sch oo out ev m' q t, mdrv m = None -> mopen m = true -> mstate m = dBegin -> serial_is (ser (mio m)) q t ->
  length t + 9 <= snd (caps (ser (mio m))) -> m_step P (MRun oo) sch m = Ok (out, ev, m') ->
  In EvFlushed ev /\ exists r, put ev = bs "AT+CGMM" ++ CRLF ++ r.
Proof.
  intros P m sch oo out ev m' q t Ed Eo Es Hq Hr H. unfold m_step in H. rewrite Ed in H. set (m0 := m_io (mkSys (ser (mio m)) sch []) m) in *.
  destruct (run_step oo m0 q t Hq Eo) as [[E _]|(m1 & ev1 & q1 & t1 & p1 & p2 & E & S & Sm & Pu & A & D)]; [rewrite E in H; discriminate|].
  rewrite E in H. cbn [bind] in H. destruct S as (Hs1 & _ & Lg & _). cbn [slog mio m_io m0 app] in Lg.
  destruct (serial_is_run (concat (sched (mio m1))) _ _ _ Hs1) as (s' & ev' & Er & Hs & Fi). rewrite Er in H. cbn [bind] in H. rewrite Lg in H.
  assert (Ee : ev = ev1 ++ ev') by congruence. destruct (isr_ev_quiet ev' Fi) as (Q1 & Q2 & _).
  unfold asks in A. cbn [m_io mstate m0 mio ser] in A. rewrite Es in A. destruct A as ((n & A1 & A3) & A2). rewrite Ee. split; [apply in_or_app; left; exact A2|].
  exists p2. rewrite put_app, Q2, app_nil_r, Pu, A1. rewrite firstn_all2 by (cbn [length bs list_ascii_of_string app CRLF]; lia). rewrite <- app_assoc. reflexivity.
Qed.
Theorem C60_asks_version : forall P m sch oo out ev m' q t, mdrv m = None -> mopen m = true -> mstate m = dCgmm -> serial_is (ser (mio m)) q t ->
  length t + 8 <= snd (caps (ser (mio m))) -> m_step P (MRun oo) sch m = Ok (out, ev, m') -> mstate m' = dGmr ->
  reply (bs "ERROR") (mkMcall (MRun oo) sch out ev) /\ put ev = bs "AT+GMR" ++ CRLF.
Proof.
  intros P m sch oo out ev m' q t Ed Eo Es Hq Hr H Hg. unfold m_step in H. rewrite Ed in H. set (m0 := m_io (mkSys (ser (mio m)) sch []) m) in *.
  destruct (run_step oo m0 q t Hq Eo) as [[E _]|(m1 & ev1 & q1 & t1 & p1 & p2 & E & S & Sm & Pu & A & D)]; [rewrite E in H; discriminate|].
  rewrite E in H. cbn [bind] in H. destruct S as (Hs1 & _ & Lg & _). cbn [slog mio m_io m0 app] in Lg.
  destruct (serial_is_run (concat (sched (mio m1))) _ _ _ Hs1) as (s' & ev' & Er & Hs & Fi). rewrite Er in H. cbn [bind] in H. rewrite Lg in H.
  assert (Ee : ev = ev1 ++ ev') by congruence. destruct (isr_ev_quiet ev' Fi) as (Q1 & Q2 & _).
  match type of H with Ok (_, _, ?w) = _ => assert (Ev : m' = w) by congruence end. subst m'. cbn [m_io mstate] in Hg.
  unfold asks in A. cbn [m_io mstate m0] in A. rewrite Es in A. unfold st_first in D. cbn [m_io mstate m0] in D. rewrite Es in D.
  destruct D as [(D1 & _)|(cs & r & D1 & D2 & D3)]; [congruence|]. rewrite Hg in D2, D3. destruct D3 as [[_ (room & D3 & D4)]|[D3 _]]; [|contradiction D3; split; reflexivity].
  assert (Pe : prefixb (bs "ERROR") cs = true).
  { cbn [d_next] in D2. destruct (prefixb (bs "SIMCOM_SIM800") cs); [discriminate|]. destruct (prefixb (bs "SIMCOM_SIM7600") cs); [discriminate|].
    destruct (prefixb (bs "CC1352P7") cs); [discriminate|]. destruct (prefixb (bs "ERROR") cs); [reflexivity|discriminate]. }
  rewrite Ee. split.
  - split; [exact I|]. cbn [c_ev]. rewrite taken_app, Q1, app_nil_r, D1. apply prefixb_taken. exact Pe.
  - rewrite put_app, Q2, app_nil_r, Pu, A, D3. cbn [app]. apply firstn_all2. cbn [m_io mio ser m0] in D4. specialize (D4 ltac:(congruence)). cbn [length bs list_ascii_of_string app CRLF]. lia.
Qed.

(** A complete line that is buffered is used: the state it leads to. *)
Lemma quiet_run : forall P m oo q t, mdrv m = None -> mopen m = true -> mstate m <> dNone -> mstate m <> dBegin -> serial_is (ser (mio m)) q t ->
  (0 < u16 (Z.of_nat (line_count q)))%Z -> (Z.of_nat (length q) < 65535)%Z ->
  exists out ev m', m_step P (MRun oo) [] m = Ok (out, ev, m') /\ mstate m' = d_next (mstate m) (fst (split_line q)).
Proof.
  intros P m oo q t Ed Eo N1 N2 Hq Hl Hn. unfold m_step. rewrite Ed. set (m0 := m_io (mkSys (ser (mio m)) [] []) m).
  assert (Ef : m_first m0 = Ok m0) by (unfold m_first; cbn [m_io mstate m0]; destruct (mstate m); congruence).
  unfold m_run. cbn [m_io mopen m0]. rewrite Eo. cbn [negb]. fold m0. rewrite Ef. cbn [bind].
  destruct (can_step (mio m0) q t Hq) as (y2 & e2 & a & k & E2 & S2 & F2 & K2). destruct (K2 eq_refl) as (-> & -> & K3). rewrite app_nil_r in E2. rewrite E2. cbn [bind].
  replace (0 <? u16 (Z.of_nat (line_count q)))%Z with true by lia. cbn [skipn] in S2. rewrite app_nil_r in S2. destruct S2 as (H2 & C2 & _).
  unfold m_read_line. cbn [m_io mio]. destruct (avail_step y2 q t H2) as (y3 & e3 & a & k & E3 & S3 & F3 & K4). destruct (K4 K3) as (-> & -> & K5). rewrite app_nil_r in E3, S3.
  rewrite E3. cbn [bind skipn] in *. destruct S3 as (H3 & C3 & _).
  assert (Ej : Z.to_nat (u16 (Z.of_nat (length q) + 1)) = S (length q)) by (unfold u16; lia). rewrite Ej. cbn [s_readline].
  destruct (s_readline_loop_step (readline_fuel y3) NUL (length q) y3 q t H3) as (cs & y4 & e4 & q4 & t4 & E4 & S4 & CS & P4 & _ & K6).
  { unfold readline_fuel. destruct (lring_is_avail _ _ (proj1 H3)) as [Hay _]. lia. } { reflexivity. }
  destruct (K6 K5) as (T4 & Q4 & -> & K7). rewrite E4. cbn [bind]. unfold wr. rewrite app_length. cbn [length]. replace (length cs <? length cs + 1) with true by lia. cbn [bind].
  assert (El : list_set (cs ++ [NUL]) (length cs) NUL = cs ++ [NUL]) by (clear; induction cs as [|c cs IH]; [reflexivity|cbn [app length list_set]; rewrite IH; reflexivity]).
  rewrite El. destruct S4 as (H4 & _).
  destruct (line_step cs (m_io y4 (m_io y2 m0)) q4 t H4) as (m5 & e5 & q5 & t5 & E5 & S5 & T5 & N5 & R5 & G5).
  rewrite E5. cbn [bind]. destruct S5 as (H5 & _). destruct (serial_is_run (concat (sched (mio m5))) _ _ _ H5) as (s' & ev' & Er & _). rewrite Er. cbn [bind].
  do 3 eexists. split; [reflexivity|]. cbn [m_io mstate m0] in *. rewrite N5. f_equal. rewrite CS, T4. apply firstn_all2.
  destruct (split_line q) as [l rest] eqn:Eq. cbn [fst]. destruct (split_line_spec q l rest Eq) as [<- _]. rewrite app_length. lia.
Qed.
Definition answers (lit : bytes) (q : list ascii) : Prop := exists body rest, q = lit ++ body ++ [newline] ++ rest.
Lemma split_answer : forall lit q, answers lit q -> ~ In newline lit -> prefixb lit (fst (split_line q)) = true.
Proof.
  intros lit q (body & rest & ->) Hn. set (r0 := body ++ [newline] ++ rest). clearbody r0. clear body rest. induction lit as [|c lit IH]; [reflexivity|]. cbn [app split_line].
  destruct (Ascii.eqb_spec c newline) as [->|Hc]; [contradiction Hn; left; reflexivity|].
  destruct (split_line (lit ++ r0)) as [l r]. cbn [fst] in IH. cbn [fst prefixb]. rewrite Ascii.eqb_refl. cbn [andb]. apply IH.
  intro K. apply Hn. right. exact K.
Qed.
Theorem C60_complete : forall P m oo q t, mdrv m = None -> mopen m = true -> serial_is (ser (mio m)) q t ->
  (0 < u16 (Z.of_nat (line_count q)))%Z -> (Z.of_nat (length q) < 65535)%Z ->
  mstate m = dCgmm /\ (answers (bs "SIMCOM_SIM800") q \/ answers (bs "SIMCOM_SIM7600") q \/ answers (bs "CC1352P7") q) \/ mstate m = dWaitOk /\ (exists rest, q = bs "OK" ++ CRLF ++ rest) ->
  exists out ev m', m_step P (MRun oo) [] m = Ok (out, ev, m') /\ m_detected m' = true.
Proof.
  intros P m oo q t Ed Eo Hq Hl Hn [[Es A]|[Es (rest & A)]].
  - destruct (quiet_run P m oo q t Ed Eo) as (out & ev & m' & E & Em); try assumption; try congruence. exists out, ev, m'. split; [exact E|]. unfold m_detected. rewrite Em, Es.
    cbn [d_next]. destruct A as [A|[A|A]].
    + rewrite (split_answer _ _ A) by nonul. reflexivity.
    + destruct (prefixb (bs "SIMCOM_SIM800") (fst (split_line q))); [reflexivity|]. rewrite (split_answer _ _ A) by nonul. reflexivity.
    + destruct (prefixb (bs "SIMCOM_SIM800") (fst (split_line q))); [reflexivity|]. destruct (prefixb (bs "SIMCOM_SIM7600") (fst (split_line q))); [reflexivity|].
      rewrite (split_answer _ _ A) by nonul. reflexivity.
  - destruct (quiet_run P m oo q t Ed Eo) as (out & ev & m' & E & Em); try assumption; try congruence. exists out, ev, m'. split; [exact E|]. unfold m_detected. rewrite Em, Es, A.
    reflexivity.
Qed.

(** A session. *)
Definition feed (l : bytes) : list isr := map (fun c => Transfer (Some c) false) l.
Definition pf : plat := mkPlat true true.
Definition b64 : bytes := repeat NUL 64.
Definition w0 : rawmem := mkRaw (repeat NUL 61) (repeat NUL 18) (repeat NUL 24) 0%Z.
Fixpoint m_go (m : detect) (l : list (mop * list (list isr))) : res (list (dobs * bytes * bytes) * detect) :=
  match l with
  | [] => Ok ([], m)
  | (o, sch) :: l => let* (out, ev, m) := m_step pf o sch m in let* (os, m) := m_go m l in Ok ((out, taken ev, put ev) :: os, m)
  end.
Example C60_session : match m_go (detect_new (serial_new b64 b64) true)
    [(MStart, []); (MRun true, []); (MRun true, []); (MIdle, [feed (bs "ERROR" ++ CRLF)]); (MRun true, []); (MDetected, []); (MIdle, [feed (bs "AT version:2.1.0" ++ CRLF)]);
     (MRun true, []); (MIdle, [feed (bs "OK" ++ CRLF)]); (MRun true, []); (MDetected, []); (MGet b64 b64 (mkRaw (repeat NUL 61) (repeat NUL 18) [] 0), [])] with
  | Ok (l, m) => (l, match mdrv m with Some (MEsp _) => true | _ => false end) =
      ([(DNone, [], []); (DNone, [], []); (DNone, [], bs "AT+CGMM" ++ CRLF); (DNone, [], []); (DNone, bs "ERROR" ++ CRLF, bs "AT+GMR" ++ CRLF); (DBool false, [], []); (DNone, [], []);
        (DNone, bs "AT version:2.1.0" ++ CRLF, []); (DNone, [], []); (DNone, bs "OK" ++ CRLF, []); (DBool true, [], []); (DBool true, [], [])], true)
  | UB _ => False
  end.
Proof. vm_compute. reflexivity. Qed.

(** ** C61 *)
Lemma J_caps : forall P h m o sch out ev m', J h m -> m_step P o sch m = Ok (out, ev, m') -> mdrv m = None -> mdrv m' = None -> caps (ser (mio m')) = caps (ser (mio m)).
Proof.
  intros P h m o sch out ev m' (_ & _ & Jp) H Ed Ed'. rewrite Ed in Jp. destruct Jp as (q & t & Hq).
  assert (Rc : forall is, exists s' ev', run_isrs (ser (mio m)) is = Ok (s', ev') /\ caps s' = caps (ser (mio m))).
  { intro is. destruct (run_isrs_is is _ q t Hq) as (s' & ev' & a & k & E & _ & C & _). eauto. }
  unfold m_step in H. destruct (Rc (concat sch)) as (s' & ev' & Er & Cs).
  destruct o as [| | |oo| |rb wb w|o]; cbn [m_start mdrv mio m_io] in H; rewrite ?Ed in H; try rewrite Er in H; cbn [bind mdrv mio] in H.
  - match type of H with Ok (_, _, ?w) = _ => assert (Ev : m' = w) by congruence end. subst m'. exact Cs.
  - match type of H with Ok (_, _, ?w) = _ => assert (Ev : m' = w) by congruence end. subst m'. exact Cs.
  - match type of H with Ok (_, _, ?w) = _ => assert (Ev : m' = w) by congruence end. subst m'. exact Cs.
  - set (m0 := m_io (mkSys (ser (mio m)) sch []) m) in *. destruct (mopen m) eqn:Eo.
    + destruct (run_step oo m0 q t Hq Eo) as [[E _]|(m1 & ev1 & q1 & t1 & p1 & p2 & E & S & _)]; [rewrite E in H; discriminate|].
      rewrite E in H. cbn [bind] in H. destruct S as (Hs1 & C1 & _). destruct (run_isrs_is (concat (sched (mio m1))) _ _ _ Hs1) as (s2 & ev2 & a & k & E2 & _ & C2 & _).
      rewrite E2 in H. cbn [bind] in H. match type of H with Ok (_, _, ?w) = _ => assert (Ev : m' = w) by congruence end. subst m'. cbn [m_io mio ser]. rewrite C2, C1. reflexivity.
    + unfold m_run in H. cbn [m_io mopen m0] in H. rewrite Eo in H. cbn [negb bind] in H.
      assert (Ei : mio (if oo then mkDetect (mio m0) true (mstate m0) (mstart m0) (mdrv m0) (mtask m0) else m_state dError m0) = mio m0) by (destruct oo; reflexivity).
      fold m0 in H. rewrite Ei in H. cbn [m_io mio ser sched slog m0] in H. rewrite Er in H. cbn [bind] in H.
      match type of H with Ok (_, _, ?w) = _ => assert (Ev : m' = w) by congruence end. subst m'. exact Cs.
  - match type of H with Ok (_, _, ?w) = _ => assert (Ev : m' = w) by congruence end. subst m'. exact Cs.
  - destruct (m_construct s' (mopen m) rb wb w (mstate m)) as [c|]; [destruct c; cbn [bind] in H; [|discriminate]|];
      match type of H with Ok (_, _, ?w) = _ => assert (Ev : m' = w) by congruence end; subst m'; [discriminate|exact Cs].
  - discriminate.
Qed.

(** run() cannot go wrong while the receive buffer is smaller than 65535 bytes. *)
Theorem C61_safe : forall P s opened q t h m oo sch, serial_is s q t -> (Z.of_nat (fst (caps s)) < 65535)%Z -> m_hist P (detect_new s opened) h m -> mdrv m = None ->
  exists r, m_step P (MRun oo) sch m = Ok r.
Proof.
  intros P s opened q t h m oo sch Hs Hc Hh Hd. pose proof (J_hist P _ h m Hh [] (J_new s opened q t Hs)) as HJ.
  assert (Hcap : caps (ser (mio m)) = caps s).
  { assert (G : forall m0 h m, m_hist P m0 h m -> mdrv m = None -> forall h0, J h0 m0 -> mdrv m0 = None /\ caps (ser (mio m)) = caps (ser (mio m0))).
    { clear. intros m0 h m H. induction H as [m|m o sch out ev m1 h m2 Hst Hh IH]; intros Hd h0 HJ; [auto|].
      destruct (IH Hd _ (J_step P _ _ _ _ _ _ _ HJ Hst)) as [I1 I2].
      assert (Ed : mdrv m = None).
      { destruct (mdrv m) as [v|] eqn:Ev; [|reflexivity]. exfalso. unfold m_step in Hst. rewrite Ev in Hst.
        destruct o as [| | |oo| |rb wb w|o]; cbn [m_start mdrv] in Hst; rewrite ?Ev in Hst;
          try (match type of Hst with bind ?x _ = _ => destruct x as [[[a b] v1]|]; cbn [bind] in Hst; [|discriminate] end;
               match type of Hst with Ok (_, _, ?w) = _ => assert (Em : m1 = w) by congruence end; subst m1; discriminate).
        destruct (run_isrs _ (concat sch)) as [[s ev0]|]; cbn [bind] in Hst; [|discriminate].
        destruct (m_construct s _ rb wb w (mstate m)) as [c|].
        - destruct c as [v1|]; cbn [bind] in Hst; [|discriminate]. match type of Hst with Ok (_, _, ?w) = _ => assert (Em : m1 = w) by congruence end; subst m1; discriminate.
        - match type of Hst with bind ?x _ = _ => destruct x as [[[a b] v1]|]; cbn [bind] in Hst; [|discriminate] end.
          match type of Hst with Ok (_, _, ?w) = _ => assert (Em : m1 = w) by congruence end; subst m1; discriminate. }
      split; [exact Ed|]. rewrite I2. eapply J_caps; eassumption. }
    destruct (G _ _ _ Hh Hd [] (J_new s opened q t Hs)) as [_ G2]. exact G2. }
  destruct HJ as (_ & _ & Jp). rewrite Hd in Jp. destruct Jp as (q1 & t1 & Hq). unfold m_step. rewrite Hd. set (m0 := m_io (mkSys (ser (mio m)) sch []) m).
  destruct (mopen m) eqn:Eo.
  - destruct (run_step oo m0 q1 t1 Hq Eo) as [[_ L]|(m1 & ev1 & q2 & t2 & p1 & p2 & E & S & _)].
    + cbn [m_io mio ser m0] in L. rewrite Hcap in L. lia.
    + rewrite E. cbn [bind]. destruct S as (Hs1 & _). destruct (serial_is_run (concat (sched (mio m1))) _ _ _ Hs1) as (s2 & ev2 & E2 & _). rewrite E2. cbn [bind]. eauto.
  - unfold m_run. cbn [m_io mopen m0]. rewrite Eo. cbn [negb bind]. fold m0.
    assert (Ei : mio (if oo then mkDetect (mio m0) true (mstate m0) (mstart m0) (mdrv m0) (mtask m0) else m_state dError m0) = mio m0) by (destruct oo; reflexivity).
    rewrite Ei. cbn [m_io mio ser sched slog m0]. destruct (serial_is_run (concat sch) _ _ _ Hq) as (s2 & ev2 & E2 & _). rewrite E2. cbn [bind]. eauto.
Qed.
(** With 65535 bytes buffered (or that many more by a multiple of 65536) and a
    line among them the size of the array wraps to 0 and the terminator is written
    outside it. *)
Theorem C61_refuted : forall P m oo q t, mdrv m = None -> mopen m = true -> mstate m <> dBegin -> serial_is (ser (mio m)) q t ->
  (0 < u16 (Z.of_nat (line_count q)))%Z -> (Z.of_nat (length q) mod 65536 = 65535)%Z -> m_step P (MRun oo) [] m = UB OutOfBounds.
Proof.
  intros P m oo q t Ed Eo Nb Hq Hl Hn. unfold m_step. rewrite Ed. set (m0 := m_io (mkSys (ser (mio m)) [] []) m).
  assert (Ef : exists m1, m_first m0 = Ok m1 /\ mio m1 = mio m0).
  { unfold m_first. cbn [m_io mstate m0 mstart]. destruct (mstate m); try congruence; eauto. destruct (mstart m); eauto. }
  destruct Ef as (m1 & Ef & Ei). unfold m_run. cbn [m_io mopen m0]. rewrite Eo. cbn [negb]. fold m0. rewrite Ef. cbn [bind].
  assert (Hq1 : serial_is (ser (mio m1)) q t) by (rewrite Ei; exact Hq). assert (Hs1 : sched (mio m1) = []) by (rewrite Ei; reflexivity).
  destruct (can_step (mio m1) q t Hq1) as (y2 & e2 & a & k & E2 & S2 & F2 & K2). destruct (K2 Hs1) as (-> & -> & K3). rewrite app_nil_r in E2. rewrite E2. cbn [bind].
  replace (0 <? u16 (Z.of_nat (line_count q)))%Z with true by lia. cbn [skipn] in S2. rewrite app_nil_r in S2. destruct S2 as (H2 & C2 & _).
  unfold m_read_line. cbn [m_io mio]. destruct (avail_step y2 q t H2) as (y3 & e3 & a & k & E3 & S3 & F3 & K4). destruct (K4 K3) as (-> & -> & K5). rewrite app_nil_r in E3, S3.
  rewrite E3. cbn [bind]. assert (Ej : Z.to_nat (u16 (Z.of_nat (length q) + 1)) = 0) by (unfold u16; lia). rewrite Ej. reflexivity.
Qed.
(** Such a state is reached by receiving that much while nothing is read. *)
Lemma feed_run : forall l s q t, serial_is s q t -> length q + length l <= fst (caps s) -> exists s', run_isrs s (feed l) = Ok (s', map EvStored l) /\ serial_is s' (q ++ l) t.
Proof.
  induction l as [|c l IH]; intros s q t [Hr Ht] Hl.
  - exists s. rewrite app_nil_r. split; [reflexivity|]. split; assumption.
  - cbn [feed map run_isrs length] in *. unfold caps in Hl. cbn [fst] in Hl. destruct (lring_is_avail _ _ Hr) as [Ha _].
    destruct (lr_push_is (srx s) q c Hr) as (rx & E & Hx & Hsz); [lia|].
    assert (Ef : ring_is_full (lr (srx s)) = false) by (rewrite (lring_is_full _ _ Hr); apply Nat.eqb_neq; lia).
    assert (Et : transfer s (Transfer (Some c) false) = Ok (mkSerial rx (stx s), [EvStored c])).
    { unfold transfer. rewrite Ef. cbn [negb]. rewrite E. cbn [bind]. destruct (Nat.ltb_spec 0 (avail (lr (stx s)))) as [L|L]; [|reflexivity].
      destruct (lring_is_avail _ _ Ht) as [Hat _]. destruct t as [|x t]; [cbn in Hat; lia|].
      assert (Er : ring_read (lr (stx s)) = Ok x) by (destruct Ht as (W & C & _); eapply ring_read_spec; [apply W|exact C]). rewrite Er. reflexivity. }
    rewrite Et. cbn [bind]. destruct (IH (mkSerial rx (stx s)) (q ++ [c]) t) as (s' & E' & Hs'); [split; assumption|unfold caps; cbn [fst srx]; rewrite app_length; cbn [length]; lia|].
    fold (feed l). rewrite E'. cbn [bind]. exists s'. split; [reflexivity|]. rewrite <- app_assoc in Hs'. exact Hs'.
Qed.
Theorem C61_reached : forall P rbuf wbuf n, length rbuf = n -> (65535 <= Z.of_nat n)%Z -> exists h m, m_hist P (detect_new (serial_new rbuf wbuf) true) h m /\
  forall oo, m_step P (MRun oo) [] m = UB OutOfBounds.
Proof.
  intros P rbuf wbuf n Hn Hz.
  assert (Hk : exists k, Z.of_nat k = 65534%Z) by (exists (Z.to_nat 65534); apply Z2Nat.id; discriminate).
  destruct Hk as [k Hk].
  assert (Hl : exists l, l = newline :: repeat NUL k) by eauto. destruct Hl as [l Hl].
  assert (Ll : length l = S k) by (rewrite Hl; cbn [length]; rewrite repeat_length; reflexivity).
  assert (Lc : line_count l = 1).
  { rewrite Hl. cbn [line_count]. rewrite Ascii.eqb_refl. f_equal. clear. induction k as [|k IH]; [reflexivity|cbn [repeat line_count]; exact IH]. }
  destruct (feed_run l (serial_new rbuf wbuf) [] []) as (s' & E & Hs'); [apply serial_new_is|rewrite caps_new; cbn [fst length]; lia|].
  exists [mkMcall MIdle [feed l] DNone (map EvStored l)], (m_io (mkSys s' [] []) (detect_new (serial_new rbuf wbuf) true)). split.
  - eapply mh_cons; [|apply mh_nil]. unfold m_step. cbn [detect_new mdrv mio ser concat]. rewrite app_nil_r, E. reflexivity.
  - intro oo. apply (C61_refuted P _ oo l []); [reflexivity|reflexivity|discriminate|..].
    + exact Hs'.
    + rewrite Lc. reflexivity.
    + rewrite Ll, Nat2Z.inj_succ, Hk. reflexivity.
Qed.

(** ** C62 *)

(** Once the driver exists nothing changes the result any more. *)
Theorem C62_stable : forall P s opened q t h m v h2 m2, serial_is s q t -> m_hist P (detect_new s opened) h m -> mdrv m = Some v -> m_hist P m h2 m2 ->
  m_detected m2 = true /\ exists v2, mdrv m2 = Some v2 /\
    match v, v2 with M800 _, M800 _ => True | M7x00 _, M7x00 _ => True | MEsp _, MEsp _ => True | MCc _, MCc _ => True | _, _ => False end.
Proof.
  intros P s opened q t h m v h2 m2 Hs Hh Hv H2. pose proof (J_hist P _ h m Hh [] (J_new s opened q t Hs)) as HJ. cbn [app] in HJ.
  assert (G : mstate m2 = mstate m /\ exists v2, mdrv m2 = Some v2).
  { clear HJ Hh. revert v Hv. induction H2 as [m|m o sch out ev m1 h2 m2 Hst Hh2 IH]; intros v Hv; [eauto|].
    assert (K : mstate m1 = mstate m /\ exists v1, mdrv m1 = Some v1).
    { unfold m_step in Hst. rewrite Hv in Hst. destruct o as [| | |oo| |rb wb w|o]; cbn [m_start mdrv mstate] in Hst; rewrite ?Hv in Hst;
        try (match type of Hst with bind ?x _ = _ => destruct x as [[[a b] v1]|]; cbn [bind] in Hst; [|discriminate] end;
             match type of Hst with Ok (_, _, ?w) = _ => assert (Em : m1 = w) by congruence end; subst m1; cbn [mstate mdrv]; eauto).
      destruct (run_isrs _ (concat sch)) as [[s1 ev0]|]; cbn [bind] in Hst; [|discriminate].
      destruct (m_construct s1 _ rb wb w (mstate m)) as [c|].
      - destruct c as [v1|]; cbn [bind] in Hst; [|discriminate]. match type of Hst with Ok (_, _, ?w) = _ => assert (Em : m1 = w) by congruence end; subst m1. cbn [mstate mdrv]. eauto.
      - match type of Hst with bind ?x _ = _ => destruct x as [[[a b] v1]|]; cbn [bind] in Hst; [|discriminate] end.
        match type of Hst with Ok (_, _, ?w) = _ => assert (Em : m1 = w) by congruence end; subst m1. cbn [mstate mdrv]. eauto. }
    destruct K as (K1 & v1 & K2). destruct (IH v1 K2) as [I1 I2]. split; [congruence|exact I2]. }
  destruct G as (G1 & v2 & G2). pose proof (J_hist P _ h2 m2 H2 h HJ) as HJ2. destruct HJ as (_ & _ & Jp), HJ2 as (_ & _ & Jp2). rewrite Hv in Jp. rewrite G2 in Jp2.
  unfold m_detected. split.
  - destruct v; cbn [kind_ok] in Jp; rewrite G1, Jp; reflexivity.
  - exists v2. split; [exact G2|]. rewrite G1 in Jp2. destruct v, v2; cbn [kind_ok] in *; auto; congruence.
Qed.
(** run() then is the driver's run(); the driver gets the task's time stamp and
    the task the driver's delay. *)
Theorem C62_forwards : forall P m v oo sch out ev m', mdrv m = Some v -> m_step P (MRun oo) sch m = Ok (out, ev, m') ->
  exists out1 v1, modem_step P (run_op oo v) sch v = Ok (out1, ev, v1) /\ mdrv m' = Some (modem_last_run (tlast (mtask m)) v1) /\
    tdelay (mtask m') = u16 (tdelay (modem_task v1)) /\ tlast (mtask m') = tlast (mtask m) /\ (forall v', mdrv m' = Some v' -> tlast (modem_task v') = tlast (mtask m)).
Proof.
  intros P m v oo sch out ev m' Hv H. unfold m_step in H. rewrite Hv in H.
  destruct (modem_step P (run_op oo v) sch v) as [[[a b] v1]|] eqn:Em; cbn [bind] in H; [|discriminate].
  match type of H with Ok (_, ?e, ?w) = _ => assert (Ev : m' = w) by congruence; assert (Ee : ev = e) by congruence end. subst m' ev.
  exists a, v1. split; [reflexivity|]. cbn [mdrv mtask set_delay tdelay tlast]. split; [reflexivity|]. split; [destruct v1; reflexivity|]. split; [reflexivity|].
  intros v' E. assert (E1 : v' = modem_last_run (tlast (mtask m)) v1) by congruence. subst v'. destruct v1; reflexivity.
Qed.
(** Before that, a failing open() takes the result back, for good. *)
Theorem C62_error_forever : forall P m h m', mstate m = dError -> mdrv m = None -> m_hist P m h m' -> m_detected m' = false /\ mdrv m' = None.
Proof.
  intros P m h m' Es Ed H. assert (G : mstate m' = dError /\ mdrv m' = None); [|destruct G as [G1 G2]; split; [unfold m_detected; rewrite G1; reflexivity|exact G2]].
  induction H as [m|m o sch out ev m1 h m2 Hst Hh IH]; [auto|]. apply IH.
  - clear IH Hh. unfold m_step in Hst. rewrite Ed in Hst. destruct o as [| | |oo| |rb wb w|o]; cbn [m_start mdrv mio] in Hst; rewrite ?Ed in Hst.
    1-3: destruct (run_isrs _ _) as [[s ev0]|]; cbn [bind] in Hst; [|discriminate]; match type of Hst with Ok (_, _, ?w) = _ => assert (Em : m1 = w) by congruence end; subst m1; exact Es.
    + destruct (m_run oo _) as [m3|] eqn:Er; cbn [bind] in Hst; [|discriminate]. destruct (run_isrs _ _) as [[s ev0]|]; cbn [bind] in Hst; [|discriminate].
      match type of Hst with Ok (_, _, ?w) = _ => assert (Em : m1 = w) by congruence end. subst m1. cbn [m_io mstate].
      unfold m_run, m_first, m_read_line, m_line in Er. cbn [m_io mopen mstate mio] in Er. destruct (negb (mopen m)).
      * match type of Er with Ok ?w = _ => assert (Em : m3 = w) by congruence end.
        subst m3. destruct oo; [exact Es|reflexivity].
      * rewrite Es in Er. cbn [bind m_io mio mstate] in Er. destruct (s_can_read_line _) as [[b y]|]; cbn [bind] in Er; [|discriminate].
        destruct b; [|match type of Er with Ok ?w = _ => assert (Em : m3 = w) by congruence end; subst m3; exact Es].
        destruct (s_bytes_available _) as [[n y1]|]; cbn [bind] in Er; [|discriminate]. destruct (s_readline _ y1) as [[o y2]|]; cbn [bind] in Er; [|discriminate].
        destruct (match o with OData l k => (l, k) | _ => ([], 0) end) as [arr k]. destruct (wr arr k NUL) as [arr'|]; cbn [bind m_io mstate] in Er; [|discriminate]. rewrite Es in Er.
        match type of Er with Ok ?w = _ => assert (Em : m3 = w) by congruence end. subst m3. exact Es.
    + destruct (run_isrs _ _) as [[s ev0]|]; cbn [bind] in Hst; [|discriminate]; match type of Hst with Ok (_, _, ?w) = _ => assert (Em : m1 = w) by congruence end; subst m1; exact Es.
    + rewrite Es in Hst. cbn [m_construct] in Hst. destruct (run_isrs _ _) as [[s ev0]|]; cbn [bind] in Hst; [|discriminate]; match type of Hst with Ok (_, _, ?w) = _ => assert (Em : m1 = w) by congruence end; subst m1; exact Es.
    + discriminate.
  - clear IH Hh. unfold m_step in Hst. rewrite Ed in Hst. destruct o as [| | |oo| |rb wb w|o]; cbn [m_start mdrv mio] in Hst; rewrite ?Ed in Hst.
    1-3: destruct (run_isrs _ _) as [[s ev0]|]; cbn [bind] in Hst; [|discriminate]; match type of Hst with Ok (_, _, ?w) = _ => assert (Em : m1 = w) by congruence end; subst m1; exact Ed.
    + destruct (m_run oo _) as [m3|] eqn:Er; cbn [bind] in Hst; [|discriminate]. destruct (run_isrs _ _) as [[s ev0]|]; cbn [bind] in Hst; [|discriminate].
      match type of Hst with Ok (_, _, ?w) = _ => assert (Em : m1 = w) by congruence end. subst m1. cbn [m_io mdrv].
      unfold m_run, m_first, m_read_line, m_line in Er. cbn [m_io mopen mstate mio] in Er. destruct (negb (mopen m)).
      * match type of Er with Ok ?w = _ => assert (Em : m3 = w) by congruence end.
        subst m3. destruct oo; exact Ed.
      * rewrite Es in Er. cbn [bind m_io mio mstate] in Er. destruct (s_can_read_line _) as [[b y]|]; cbn [bind] in Er; [|discriminate].
        destruct b; [|match type of Er with Ok ?w = _ => assert (Em : m3 = w) by congruence end; subst m3; exact Ed].
        destruct (s_bytes_available _) as [[n y1]|]; cbn [bind] in Er; [|discriminate]. destruct (s_readline _ y1) as [[o y2]|]; cbn [bind] in Er; [|discriminate].
        destruct (match o with OData l k => (l, k) | _ => ([], 0) end) as [arr k]. destruct (wr arr k NUL) as [arr'|]; cbn [bind m_io mstate] in Er; [|discriminate]. rewrite Es in Er.
        match type of Er with Ok ?w = _ => assert (Em : m3 = w) by congruence end. subst m3. exact Ed.
    + destruct (run_isrs _ _) as [[s ev0]|]; cbn [bind] in Hst; [|discriminate]; match type of Hst with Ok (_, _, ?w) = _ => assert (Em : m1 = w) by congruence end; subst m1; reflexivity.
    + rewrite Es in Hst. cbn [m_construct] in Hst. destruct (run_isrs _ _) as [[s ev0]|]; cbn [bind] in Hst; [|discriminate]; match type of Hst with Ok (_, _, ?w) = _ => assert (Em : m1 = w) by congruence end; subst m1; exact Ed.
    + discriminate.
Qed.
Theorem C62_refuted : forall P m sch out ev m', mdrv m = None -> mopen m = false -> m_step P (MRun false) sch m = Ok (out, ev, m') ->
  forall h m2, m_hist P m' h m2 -> m_detected m2 = false /\ mdrv m2 = None.
Proof.
  intros P m sch out ev m' Ed Eo H h m2. unfold m_step in H. rewrite Ed in H. unfold m_run in H. cbn [m_io mopen] in H. rewrite Eo in H. cbn [negb bind m_state m_io mio] in H.
  destruct (run_isrs _ _) as [[s ev0]|]; cbn [bind] in H; [|discriminate]. match type of H with Ok (_, _, ?w) = _ => assert (Em : m' = w) by congruence end. subst m'.
  apply C62_error_forever; [reflexivity|exact Ed].
Qed.
Example C62_session : match m_go (detect_new (serial_new b64 b64) true)
    [(MStart, []); (MRun true, []); (MRun true, []); (MIdle, [feed (bs "SIMCOM_SIM800C" ++ CRLF)]); (MRun true, []); (MDetected, []); (MPortClosed, []); (MRun false, []); (MDetected, []);
     (MRun true, []); (MGet b64 b64 w0, [])] with
  | Ok (l, m) => map (fun p => fst (fst p)) l = [DNone; DNone; DNone; DNone; DNone; DBool true; DNone; DNone; DBool false; DNone; DBool false]
  | UB _ => False
  end.
Proof. vm_compute. reflexivity. Qed.
Example C62_session_driver : match m_go (detect_new (serial_new b64 b64) true)
    [(MStart, []); (MRun true, []); (MRun true, []); (MIdle, [feed (bs "SIMCOM_SIM800C" ++ CRLF)]); (MRun true, []); (MGet b64 b64 w0, []); (MPortClosed, []); (MRun false, []);
     (MDetected, []); (MRun true, []); (MRun true, []); (MOnDriver (O800 OpIsIdle), [])] with
  | Ok (l, m) => map (fun p => fst (fst p)) l = [DNone; DNone; DNone; DNone; DNone; DBool true; DNone; DNone; DBool true; DNone; DNone; DBool true]
  | UB _ => False
  end.
Proof. vm_compute. reflexivity. Qed.

(** ** Assumptions *)
Print Assumptions C60_detected.
Print Assumptions C60_driver.
Print Assumptions C60_asks.
Print Assumptions C60_asks_version.
Print Assumptions C60_complete.
Print Assumptions C61_safe.
Print Assumptions C61_refuted.
Print Assumptions C61_reached.
Print Assumptions C62_stable.
Print Assumptions C62_forwards.
Print Assumptions C62_error_forever.
Print Assumptions C62_refuted.
