(** Lemmas about the modem detection. *)
From Coq Require Import String Ascii ZArith Bool List Arith Lia ZifyBool ZifyNat.
From Verif Require Import Base QueueSpec LineSpec SerialSpec Ring RingProofs LineRing LineRingProofs Serial SerialProofs TaskMacros CStr CStrProofs Dev SimDev Sim7x00 Sim800 Espressif Cc1352 Detect.
Import ListNotations.
Local Open Scope nat_scope.
Ltac Zify.zify_post_hook ::= Z.div_mod_to_equations.

(** ** Single calls of the port *)

Lemma can_step : forall y q t, serial_is (ser y) q t ->
  exists y' ev a k, s_can_read_line y = Ok ((0 <? u16 (Z.of_nat (line_count (q ++ a))))%Z, y') /\ step_is y y' ev q (q ++ a) t (skipn k t) /\ Forall isr_ev ev /\
    (sched y = [] -> a = [] /\ k = 0 /\ sched y' = []).
Proof.
  intros y q t H. destruct (isr_point_step y q t H) as (y' & ev & a & k & E & S & F & _ & N). exists y', ev, a, k. unfold s_can_read_line. rewrite E. cbn [bind].
  assert (L : lines (srx (ser y')) = u16 (Z.of_nat (line_count (q ++ a)))) by (destruct S as (((_ & _ & L) & _) & _); exact L).
  rewrite L. split; [reflexivity|]. split; [exact S|]. split; [exact F|]. exact N.
Qed.
Lemma avail_step : forall y q t, serial_is (ser y) q t ->
  exists y' ev a k, s_bytes_available y = Ok (length (q ++ a), y') /\ step_is y y' ev q (q ++ a) t (skipn k t) /\ Forall isr_ev ev /\
    (sched y = [] -> a = [] /\ k = 0 /\ sched y' = []).
Proof.
  intros y q t H. destruct (isr_point_step y q t H) as (y' & ev & a & k & E & S & F & _ & N). exists y', ev, a, k. unfold s_bytes_available. rewrite E. cbn [bind].
  assert (L : avail (lr (srx (ser y'))) = length (q ++ a)) by (destruct S as ((L & _) & _); apply (lring_is_avail _ _ L)).
  rewrite L. split; [reflexivity|]. split; [exact S|]. split; [exact F|]. exact N.
Qed.
Lemma flush_step : forall y q t, serial_is (ser y) q t ->
  exists y' ev k, s_flush y = Ok y' /\ step_is y y' (ev ++ [EvFlushed]) q [] t (skipn k t) /\ Forall isr_ev ev /\ (sched y = [] -> k = 0 /\ sched y' = []).
Proof.
  intros y q t H. destruct (isr_point_step y q t H) as (y' & ev & a & k & E & S & F & _ & N). unfold s_flush. rewrite E. cbn [bind].
  eexists. exists ev, k. split; [reflexivity|]. destruct S as ((S1 & S2) & C & L & R & T & Cl). destruct (lr_flush_is _ _ S1) as [F1 F2]. split; [|split; [exact F|]].
  - unfold step_is. cbn [ser slog]. splits.
    + split; [exact F1|exact S2].
    + unfold caps in *. cbn [srx stx]. congruence.
    + rewrite L, app_assoc. reflexivity.
    + rewrite rx_replay_app, R. reflexivity.
    + rewrite tx_replay_app, T. reflexivity.
    + apply clean_app. split; [exact Cl|reflexivity].
  - intro Hs. destruct (N Hs) as (_ & -> & N3). cbn [sched]. auto.
Qed.
Lemma wstr_step : forall str y q t, serial_is (ser y) q t -> In NUL str ->
  exists n y' ev a t' room, s_write_str str y = Ok (n, y') /\ step_is y y' ev q (q ++ a) t t' /\ taken ev = [] /\ put ev = firstn room (str_body str) /\
    snd (caps (ser y)) - length t <= room /\
    (sched y = [] -> a = [] /\ t' = t ++ put ev /\ sched y' = []).
Proof.
  intros str y q t H Hin. unfold s_write_str, s_space_available. destruct (isr_point_step y q t H) as (y1 & e1 & a & k & E & S1 & F & _ & N). rewrite E. cbn [bind].
  assert (S1' := S1). destruct S1' as ((Sr & St) & C & _). destruct (lring_is_avail _ _ St) as [Ha Hl]. rewrite (lring_is_space _ _ St).
  set (room := rsize (lr (stx (ser y1))) - length (skipn k t)).
  destruct (s_write_str_loop_step str room y1 (q ++ a) (skipn k t)) as (n & y2 & e2 & a2 & t2 & E2 & S2 & T2 & K2 & P2 & N2);
    [split; assumption|unfold caps; cbn [snd]; unfold room; lia|exact Hin|].
  destruct (isr_ev_quiet e1 F) as (Q1 & Q2 & _). rewrite E2. exists n, y2, (e1 ++ e2), (a ++ a2), t2, room. split; [reflexivity|].
  rewrite app_assoc. split; [exact (step_is_trans _ _ _ _ _ _ _ _ _ _ _ S1 S2)|]. rewrite taken_app, put_app, Q1, Q2, T2, P2. splits; auto.
  - rewrite <- C. unfold caps, room. cbn [snd]. rewrite skipn_length. lia.
  - intro Hs. destruct (N Hs) as (-> & -> & N3). destruct (N2 N3) as (-> & -> & N4). splits; auto.
Qed.

(** ** Matching a line *)

Lemma match_ok : forall lit arr, ~ In NUL lit -> In NUL arr -> m_match lit arr = Ok (prefixb lit arr).
Proof.
  unfold m_match. induction lit as [|x lit IH]; intros arr Hn Hi; [reflexivity|]. destruct arr as [|y arr]; [destruct Hi|].
  cbn [length strncmp app prefixb]. unfold aeqb. rewrite (Ascii.eqb_sym y x). destruct (Ascii.eqb_spec x y) as [->|Hne]; cbn [negb andb]; [|reflexivity].
  destruct (Ascii.eqb_spec y NUL) as [->|Hy]; [contradiction Hn; left; reflexivity|]. apply IH; [intro K; apply Hn; right; exact K|].
  destruct Hi as [Hi|Hi]; [congruence|exact Hi].
Qed.
Lemma prefixb_nul : forall lit cs, ~ In NUL lit -> prefixb lit (cs ++ [NUL]) = prefixb lit cs.
Proof.
  induction lit as [|x lit IH]; intros cs Hn; [reflexivity|]. destruct cs as [|y cs]; cbn [app prefixb].
  - destruct (Ascii.eqb_spec x NUL) as [->|]; [contradiction Hn; left; reflexivity|reflexivity].
  - rewrite IH; [reflexivity|]. intro K. apply Hn. right. exact K.
Qed.
Lemma match_line : forall lit cs, ~ In NUL lit -> m_match lit (cs ++ [NUL]) = Ok (prefixb lit cs).
Proof. intros lit cs Hn. rewrite match_ok; [|exact Hn|apply in_or_app; right; left; reflexivity]. rewrite prefixb_nul by exact Hn. reflexivity. Qed.

Definition CRLF : bytes := [CR; LF].
Definition d_next (st : dstate) (l : bytes) : dstate :=
  match st with
  | dCgmm => if prefixb (bs "SIMCOM_SIM800") l then dSim800 else if prefixb (bs "SIMCOM_SIM7600") l then dSim7x00
             else if prefixb (bs "CC1352P7") l then dCc1352 else if prefixb (bs "ERROR") l then dGmr else dCgmm
  | dGmr => if prefixb (bs "AT version:1.7") l || prefixb (bs "AT version:2.1") l then dWaitOk else dGmr
  | dWaitOk => if prefixb (bs "OK" ++ CRLF) l then dEspressif else dWaitOk
  | _ => st
  end.
Definition rest_same (m m' : detect) : Prop := mopen m' = mopen m /\ mstart m' = mstart m /\ mdrv m' = mdrv m /\ mtask m' = mtask m.
Ltac nonul := let K := fresh in intro K; cbv in K; intuition discriminate.

Definition gmr_now (st st' : dstate) : Prop := st = dCgmm /\ st' = dGmr.
Lemma line_step : forall cs m q t, serial_is (ser (mio m)) q t ->
  exists m' ev q' t', m_line (cs ++ [NUL]) m = Ok m' /\ step_is (mio m) (mio m') ev q q' t t' /\ taken ev = [] /\ mstate m' = d_next (mstate m) cs /\ rest_same m m' /\
    (gmr_now (mstate m) (mstate m') /\ (exists room, put ev = firstn room (bs "AT+GMR" ++ CRLF) /\ snd (caps (ser (mio m))) - length t <= room) \/
     ~ gmr_now (mstate m) (mstate m') /\ mio m' = mio m /\ put ev = []).
Proof.
  intros cs m q t H. unfold m_line, rest_same, gmr_now.
  assert (Hsame : forall m', mio m' = mio m -> mstate m' = d_next (mstate m) cs -> rest_same m m' -> ~ (mstate m = dCgmm /\ mstate m' = dGmr) ->
    exists m'' ev q' t', Ok m' = Ok m'' /\ step_is (mio m) (mio m'') ev q q' t t' /\ taken ev = [] /\ mstate m'' = d_next (mstate m) cs /\
      (mopen m'' = mopen m /\ mstart m'' = mstart m /\ mdrv m'' = mdrv m /\ mtask m'' = mtask m) /\
      ((mstate m = dCgmm /\ mstate m'' = dGmr) /\ (exists room, put ev = firstn room (bs "AT+GMR" ++ CRLF) /\ snd (caps (ser (mio m))) - length t <= room) \/
       ~ (mstate m = dCgmm /\ mstate m'' = dGmr) /\ mio m'' = mio m /\ put ev = [])).
  { intros m' E1 E2 E3 E4. exists m', [], q, t. split; [reflexivity|]. split; [rewrite E1; unfold step_is; rewrite app_nil_r; splits; auto; reflexivity|].
    split; [reflexivity|]. split; [exact E2|]. split; [exact E3|]. right. auto. }
  destruct (mstate m) eqn:Es; try (apply Hsame; [reflexivity|exact Es|unfold rest_same; auto|rewrite Es; intuition discriminate]).
  - rewrite (match_line (bs "SIMCOM_SIM800") cs) by nonul. cbn [bind]. destruct (prefixb (bs "SIMCOM_SIM800") cs) eqn:P1.
    { apply Hsame; [reflexivity|cbn [m_state mstate d_next]; rewrite P1; reflexivity|unfold rest_same; auto|cbn [m_state mstate]; intuition discriminate]. }
    rewrite (match_line (bs "SIMCOM_SIM7600") cs) by nonul. cbn [bind]. destruct (prefixb (bs "SIMCOM_SIM7600") cs) eqn:P2.
    { apply Hsame; [reflexivity|cbn [m_state mstate d_next]; rewrite P1, P2; reflexivity|unfold rest_same; auto|cbn [m_state mstate]; intuition discriminate]. }
    rewrite (match_line (bs "CC1352P7") cs) by nonul. cbn [bind]. destruct (prefixb (bs "CC1352P7") cs) eqn:P3.
    { apply Hsame; [reflexivity|cbn [m_state mstate d_next]; rewrite P1, P2, P3; reflexivity|unfold rest_same; auto|cbn [m_state mstate]; intuition discriminate]. }
    rewrite (match_line (bs "ERROR") cs) by nonul. cbn [bind]. destruct (prefixb (bs "ERROR") cs) eqn:P4.
    + destruct (wstr_step (bs "AT+GMR" ++ [CR; LF; NUL]) (mio m) q t H) as (n & y' & ev & a & t' & room & E & S & T & Pu & R & _); [cbv; tauto|].
      rewrite E. cbn [bind]. eexists. exists ev, (q ++ a), t'. split; [reflexivity|]. cbn [m_state m_io mio mstate mopen mstart mdrv mtask].
      split; [exact S|]. split; [exact T|]. split; [cbn [d_next]; rewrite P1, P2, P3, P4; reflexivity|]. split; [auto|]. left. split; [auto|]. exists room. split; [exact Pu|exact R].
    + apply Hsame; [reflexivity|cbn [d_next]; rewrite P1, P2, P3, P4; exact Es|unfold rest_same; auto|rewrite Es; intuition discriminate].
  - rewrite (match_line (bs "AT version:1.7") cs) by nonul. cbn [bind]. destruct (prefixb (bs "AT version:1.7") cs) eqn:P1; cbn [bind].
    { apply Hsame; [reflexivity|cbn [m_state mstate d_next]; rewrite P1; reflexivity|unfold rest_same; auto|cbn [m_state mstate]; intuition discriminate]. }
    rewrite (match_line (bs "AT version:2.1") cs) by nonul. cbn [bind]. destruct (prefixb (bs "AT version:2.1") cs) eqn:P2.
    { apply Hsame; [reflexivity|cbn [m_state mstate d_next]; rewrite P1, P2; reflexivity|unfold rest_same; auto|cbn [m_state mstate]; intuition discriminate]. }
    apply Hsame; [reflexivity|cbn [d_next]; rewrite P1, P2; exact Es|unfold rest_same; auto|intuition discriminate].
  - rewrite (match_line (bs "OK" ++ [CR; LF]) cs) by nonul. cbn [bind]. destruct (prefixb (bs "OK" ++ CRLF) cs) eqn:P1; change [CR; LF] with CRLF; rewrite P1.
    { apply Hsame; [reflexivity|cbn [m_state mstate d_next]; rewrite P1; reflexivity|unfold rest_same; auto|cbn [m_state mstate]; intuition discriminate]. }
    apply Hsame; [reflexivity|cbn [d_next]; rewrite P1; exact Es|unfold rest_same; auto|intuition discriminate].
Qed.

(** ** Reading a line *)

Lemma caps_avail : forall s q t, serial_is s q t -> length q <= fst (caps s).
Proof. intros s q t [H _]. apply (lring_is_avail _ _ H). Qed.

Lemma tx_replay_length : forall ev t t', tx_replay ev t = Some t' -> length t' <= length t + length (put ev).
Proof.
  induction ev as [|e ev IH]; intros t t' H; cbn [tx_replay put] in *; [assert (t = t') by congruence; subst; lia|].
  destruct e as [c|c|c|c|c| |]; try (apply IH in H; exact H).
  - apply IH in H. rewrite app_length in H. cbn [length] in *. lia.
  - destruct t as [|x t]; [discriminate|]. destruct (Ascii.eqb x c); [|discriminate]. apply IH in H. cbn [length]. lia.
Qed.
Lemma read_line_step : forall m q t, serial_is (ser (mio m)) q t ->
  (m_read_line m = UB OutOfBounds /\ 65535 <= Z.of_nat (fst (caps (ser (mio m)))))%Z \/
  exists m' ev q' t' cs r, m_read_line m = Ok m' /\ step_is (mio m) (mio m') ev q q' t t' /\ taken ev = cs ++ r /\ mstate m' = d_next (mstate m) cs /\ rest_same m m' /\
    (gmr_now (mstate m) (mstate m') /\ (exists room, put ev = firstn room (bs "AT+GMR" ++ CRLF) /\ snd (caps (ser (mio m))) - length t <= room) \/ ~ gmr_now (mstate m) (mstate m') /\ put ev = []).
Proof.
  intros m q t H. unfold m_read_line. destruct (avail_step (mio m) q t H) as (y1 & e1 & a & k & E1 & S1 & F1 & _). rewrite E1. cbn [bind].
  assert (S1' := S1). destruct S1' as (H1 & C1 & _). pose proof (caps_avail _ _ _ H1) as Hc. rewrite C1 in Hc.
  destruct (Z.to_nat (u16 (Z.of_nat (length (q ++ a)) + 1))) as [|j] eqn:Ej.
  - left. cbn [s_readline bind]. split; [reflexivity|]. unfold u16 in Ej. lia.
  - right. cbn [s_readline]. destruct (s_readline_loop_step (readline_fuel y1) NUL j y1 (q ++ a) (skipn k t) H1) as (cs & y2 & e2 & q2 & t2 & E2 & S2 & CS & P2 & _).
    { unfold readline_fuel. destruct (lring_is_avail _ _ (proj1 H1)) as [Hay _]. lia. } { reflexivity. }
    rewrite E2. cbn [bind]. unfold wr. rewrite app_length. cbn [length]. replace (length cs <? length cs + 1) with true by lia. cbn [bind].
    assert (El : list_set (cs ++ [NUL]) (length cs) NUL = cs ++ [NUL]) by (clear; induction cs as [|c cs IH]; [reflexivity|cbn [app length list_set]; rewrite IH; reflexivity]).
    rewrite El. assert (S2' := S2). destruct S2' as (H2 & C2 & _).
    destruct (line_step cs (m_io y2 m) q2 t2 H2) as (m' & e3 & q3 & t3 & E3 & S3 & T3 & N3 & R3 & G3). rewrite E3. cbn [m_io mio mstate] in *.
    destruct (isr_ev_quiet e1 F1) as (Q1 & Q2 & _).
    exists m', ((e1 ++ e2) ++ e3), q3, t3, cs, (skipn j (taken e2)). split; [reflexivity|].
    split; [exact (step_is_trans _ _ _ _ _ _ _ _ _ _ _ (step_is_trans _ _ _ _ _ _ _ _ _ _ _ S1 S2) S3)|].
    rewrite !taken_app, !put_app, Q1, Q2, P2, T3. cbn [app]. split; [rewrite app_nil_r, CS; symmetry; apply firstn_skipn|]. split; [exact N3|]. split; [exact R3|].
    destruct G3 as [[G3 (room & G4 & G5)]|(G3 & _ & G4)]; [left|right; auto]. split; [exact G3|]. exists room. split; [exact G4|]. rewrite C2, C1 in G5.
    destruct S2 as (_ & _ & _ & _ & X & _). apply tx_replay_length in X. rewrite P2 in X. cbn [length] in X. rewrite skipn_length in X. lia.
Qed.

(** ** One run() *)

Definition st_first (m : detect) : dstate := match mstate m with dNone => if mstart m then dBegin else dNone | dBegin => dCgmm | s => s end.
Definition same_opts (m m' : detect) : Prop := mopen m' = mopen m /\ mstart m' = mstart m /\ mdrv m' = mdrv m.
Definition asks (m : detect) (t : list ascii) (ev : list event) (p : bytes) : Prop :=
  match mstate m with
  | dBegin => (exists n, p = firstn n (bs "AT+CGMM" ++ CRLF) /\ snd (caps (ser (mio m))) - length t <= n) /\ In EvFlushed ev
  | _ => p = []
  end.

Lemma run_step : forall oo m q t, serial_is (ser (mio m)) q t -> mopen m = true ->
  (m_run oo m = UB OutOfBounds /\ 65535 <= Z.of_nat (fst (caps (ser (mio m)))))%Z \/
  exists m' ev q' t' p1 p2, m_run oo m = Ok m' /\ step_is (mio m) (mio m') ev q q' t t' /\ same_opts m m' /\ put ev = p1 ++ p2 /\ asks m t ev p1 /\
    (mstate m' = st_first m /\ taken ev = [] /\ p2 = [] \/
     exists cs r, taken ev = cs ++ r /\ mstate m' = d_next (st_first m) cs /\
       (gmr_now (st_first m) (mstate m') /\ (exists room, p2 = firstn room (bs "AT+GMR" ++ CRLF) /\ (mstate m <> dBegin -> snd (caps (ser (mio m))) - length t <= room)) \/ ~ gmr_now (st_first m) (mstate m') /\ p2 = [])).
Proof.
  intros oo m q t H Ho. unfold m_run. rewrite Ho. cbn [negb].
  assert (F : exists m1 e1 q1 t1, m_first m = Ok m1 /\ step_is (mio m) (mio m1) e1 q q1 t t1 /\ same_opts m m1 /\ mstate m1 = st_first m /\ taken e1 = [] /\ asks m t e1 (put e1)).
  { unfold m_first, st_first, asks, same_opts.
    assert (Hn : forall m', mio m' = mio m -> step_is (mio m) (mio m') [] q q t t) by (intros m' ->; unfold step_is; rewrite app_nil_r; splits; auto; reflexivity).
    destruct (mstate m) eqn:Es; try (exists m, [], q, t; splits; auto; fail).
    - destruct (mstart m) eqn:Em; [exists (m_state dBegin m)|exists m]; exists [], q, t; splits; auto.
    - destruct (flush_step (mio m) q t H) as (y1 & e1 & k & E1 & S1 & F1 & _). rewrite E1. cbn [bind]. assert (S1' := S1). destruct S1' as (H1 & _).
      destruct (wstr_step (bs "AT+CGMM" ++ [CR; LF; NUL]) y1 [] (skipn k t) H1) as (n & y2 & e2 & a & t2 & room & E2 & S2 & T2 & P2 & R2 & _); [cbv; tauto|].
      rewrite E2. cbn [bind]. destruct (isr_ev_quiet e1 F1) as (Q1 & Q2 & _).
      eexists. exists ((e1 ++ [EvFlushed]) ++ e2), ([] ++ a), t2. split; [reflexivity|]. cbn [m_state m_io mio mopen mstart mdrv mstate].
      split; [exact (step_is_trans _ _ _ _ _ _ _ _ _ _ _ S1 S2)|]. split; [auto|]. split; [reflexivity|]. rewrite !taken_app, !put_app, Q1, Q2, T2. cbn [taken put app].
      split; [reflexivity|]. split; [exists room; split; [exact P2|]; destruct S1 as (_ & Cx & _); rewrite Cx, skipn_length in R2; lia|]. rewrite !in_app_iff. left. right. left. reflexivity. }
  destruct F as (m1 & e1 & q1 & t1 & E1 & S1 & Sm & St & T1 & A1). rewrite E1. cbn [bind].
  assert (S1' := S1). destruct S1' as (H1 & C1 & _).
  destruct (can_step (mio m1) q1 t1 H1) as (y2 & e2 & a & k & E2 & S2 & F2 & _). rewrite E2. cbn [bind]. destruct (isr_ev_quiet e2 F2) as (Q1 & Q2 & _).
  pose proof (step_is_trans _ _ _ _ _ _ _ _ _ _ _ S1 S2) as S12. assert (S2' := S2). destruct S2' as (H2 & C2 & _).
  destruct (0 <? u16 (Z.of_nat (line_count (q1 ++ a))))%Z.
  - destruct (read_line_step (m_io y2 m1) (q1 ++ a) (skipn k t1) H2) as [[E3 L3]|(m' & e3 & q3 & t3 & cs & r & E3 & S3 & T3 & N3 & R3 & G3)].
    + left. split; [exact E3|]. cbn [m_io mio] in L3. rewrite C2, C1 in L3. exact L3.
    + right. cbn [m_io mio mstate] in *. exists m', ((e1 ++ e2) ++ e3), q3, t3, (put e1), (put e3). split; [exact E3|].
      split; [exact (step_is_trans _ _ _ _ _ _ _ _ _ _ _ S12 S3)|]. destruct R3 as (R3 & R4 & R5 & _). cbn [m_io mopen mstart mdrv] in *.
      split; [unfold same_opts in *; destruct Sm as (X1 & X2 & X3); splits; congruence|]. rewrite !put_app, !taken_app, Q1, Q2, T1, app_nil_r. cbn [app]. split; [reflexivity|].
      split; [unfold asks in *; destruct (mstate m); auto; rewrite !in_app_iff; tauto|]. right. exists cs, r. rewrite <- St. split; [exact T3|]. split; [exact N3|].
      destruct G3 as [[G3 (room & G4 & G5)]|G3]; [left|right; exact G3]. split; [exact G3|]. exists room. split; [exact G4|]. intro Hd. rewrite C2, C1 in G5.
      destruct S12 as (_ & _ & _ & _ & X & _). apply tx_replay_length in X. rewrite put_app, Q2, app_nil_r in X.
      assert (Pe : put e1 = []) by (unfold asks in A1; destruct (mstate m); auto; congruence). rewrite Pe in X. cbn [length] in X. lia.
  - right. exists (m_io y2 m1), (e1 ++ e2), (q1 ++ a), (skipn k t1), (put e1), []. split; [reflexivity|]. split; [exact S12|].
    split; [exact Sm|]. rewrite put_app, taken_app, Q1, Q2, T1. split; [reflexivity|]. split; [unfold asks in *; destruct (mstate m); auto; rewrite in_app_iff; tauto|].
    left. split; [exact St|]. auto.
Qed.
