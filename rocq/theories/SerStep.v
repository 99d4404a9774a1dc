(** Facts about single serial port calls in the form the driver proofs use:
    they hold for every well-formed port, say which bytes went where, and
    compose. *)
From Coq Require Import Ascii ZArith List Bool Arith Lia ZifyBool ZifyNat.
From Verif Require Import Base QueueSpec LineSpec SerialSpec Ring RingProofs LineRing LineRingProofs Serial SerialProofs.
Import ListNotations.
Local Open Scope nat_scope.
Ltac Zify.zify_post_hook ::= Z.div_mod_to_equations.

(** Partial ([U = True]) and total ([U = False]) correctness of a call. *)
Definition wp {A} (U : Prop) (e : res A) (Q : A -> Prop) : Prop :=
  match e with Ok a => Q a | UB _ => U end.

Lemma wp_ok : forall A U (a : A) (Q : A -> Prop), Q a -> wp U (Ok a) Q.
Proof. auto. Qed.
Lemma wp_bind : forall A B U (e : res A) (f : A -> res B) Q,
  wp U e (fun a => wp U (f a) Q) -> wp U (bind e f) Q.
Proof. intros A B U [a|u] f Q H; exact H. Qed.
Lemma wp_mono : forall A U (e : res A) (Q Q' : A -> Prop), wp U e Q -> (forall a, Q a -> Q' a) -> wp U e Q'.
Proof. intros A U [a|u] Q Q' H H'; cbn in *; auto. Qed.
Lemma wp_use : forall A U (e : res A) (Q : A -> Prop) a, wp U e Q -> e = Ok a -> Q a.
Proof. intros A U e Q a H ->. exact H. Qed.
Lemma wp_total : forall A (e : res A) (Q : A -> Prop), wp False e Q -> exists a, e = Ok a /\ Q a.
Proof. intros A [a|u] Q H; [eauto|destruct H]. Qed.
Lemma wp_weak : forall A (U : Prop) (e : res A) (Q : A -> Prop), wp False e Q -> wp U e Q.
Proof. intros A U [a|u] Q H; [exact H|destruct H]. Qed.

Definition rxav (y : sys) : nat := avail (lr (srx (ser y))).
Definition txav (y : sys) : nat := avail (lr (stx (ser y))).
Definition rxsz (y : sys) : nat := rsize (lr (srx (ser y))).
Definition txsz (y : sys) : nat := rsize (lr (stx (ser y))).

(** Anything that happens at the port. *)
Definition sstep (y y' : sys) (ev : list event) : Prop :=
  serial_wf (ser y') /\ caps (ser y') = caps (ser y) /\ slog y' = slog y ++ ev /\
  readline_fuel y' <= readline_fuel y /\
  (forall q, lring_is (srx (ser y)) q -> clean ev ->
     exists q', lring_is (srx (ser y')) q' /\ rx_replay ev q = Some q') /\
  (forall t, lring_is (stx (ser y)) t -> clean ev ->
     exists t', lring_is (stx (ser y')) t' /\ tx_replay ev t = Some t') /\
  (sched y = [] -> sched y' = []).

Lemma sstep_refl : forall y, serial_wf (ser y) -> sstep y y [].
Proof.
  intros y H. unfold sstep. rewrite app_nil_r. splits; auto.
  - intros q Hq _. exists q. auto. - intros t Ht _. exists t. auto.
Qed.

Lemma sstep_trans : forall y1 y2 y3 e1 e2, sstep y1 y2 e1 -> sstep y2 y3 e2 -> sstep y1 y3 (e1 ++ e2).
Proof.
  intros y1 y2 y3 e1 e2 (A1 & A2 & A3 & A4 & A5 & A6 & A7) (B1 & B2 & B3 & B4 & B5 & B6 & B7).
  unfold sstep. splits; auto.
  - congruence. - rewrite B3, A3, app_assoc. reflexivity. - lia.
  - intros q Hq Hc. apply clean_app in Hc as [C1 C2]. destruct (A5 q Hq C1) as (q1 & Hq1 & R1).
    destruct (B5 q1 Hq1 C2) as (q2 & Hq2 & R2). exists q2. rewrite rx_replay_app, R1. auto.
  - intros t Ht Hc. apply clean_app in Hc as [C1 C2]. destruct (A6 t Ht C1) as (t1 & Ht1 & R1).
    destruct (B6 t1 Ht1 C2) as (t2 & Ht2 & R2). exists t2. rewrite tx_replay_app, R1. auto.
Qed.

Lemma sstep_wf : forall y y' ev, sstep y y' ev -> serial_wf (ser y').
Proof. intros y y' ev H. apply H. Qed.
Lemma sstep_caps : forall y y' ev, sstep y y' ev -> rxsz y' = rxsz y /\ txsz y' = txsz y.
Proof. intros y y' ev (_ & H & _). unfold caps in H. injection H as H1 H2. auto. Qed.

(** *** Interrupts *)

Lemma transfer_mono : forall s i s' ev, serial_wf s -> transfer s i = Ok (s', ev) ->
  avail (lr (srx s)) <= avail (lr (srx s')) /\ avail (lr (stx s')) <= avail (lr (stx s)) /\
  (forall q, lring_is (srx s) q -> exists q', lring_is (srx s') q' /\ rx_replay ev q = Some q') /\
  (forall t, lring_is (stx s) t -> exists t', lring_is (stx s') t' /\ tx_replay ev t = Some t').
Proof.
  intros s [raw acc] s' ev [Hrx Htx] H. unfold transfer in H.
  assert (Hr : forall p, (match raw with
     | Some d => if negb (ring_is_full (lr (srx s)))
        then (let* rx := lr_push (srx s) d in Ok (rx, [EvStored d]))%res else Ok (srx s, [EvDropped d])
     | None => Ok (srx s, []) end) = Ok p ->
     avail (lr (srx s)) <= avail (lr (fst p)) /\
     (forall q l, lring_is (srx s) q -> exists q', lring_is (fst p) q' /\ rx_replay (snd p ++ l) q = rx_replay l q') /\
     (forall t l, tx_replay (snd p ++ l) t = tx_replay l t)).
  { intros p Hp. destruct raw as [d|].
    2:{ injection Hp as <-. cbn [fst snd app]. splits; eauto. }
    destruct (ring_is_full (lr (srx s))) eqn:Ef; cbn [negb] in Hp.
    { injection Hp as <-. cbn [fst snd app]. splits; eauto. }
    unfold lr_push in Hp. pose proof (ring_push_spec (lr (srx s)) d (proj1 Hrx) (proj2 Hrx)) as E0.
    assert (Hav : avail (lr (srx s)) < rsize (lr (srx s))).
    { unfold ring_is_full in Ef. apply Nat.eqb_neq in Ef. destruct Hrx as [(_ & Hle & _) _]. lia. }
    split.
    - rewrite E0 in Hp. cbn [bind] in Hp. injection Hp as <-. cbn [fst lr avail].
      destruct (avail (lr (srx s)) <? rsize (lr (srx s))); lia.
    - split.
      + intros q l Hq. destruct (lring_is_avail _ _ Hq) as [Ha _].
        destruct (lr_push_is (srx s) q d Hq ltac:(lia)) as (rx & E & Hw & _). unfold lr_push in E. rewrite E0 in *.
        cbn [bind] in *. injection Hp as <-. injection E as <-. cbn [fst snd]. eauto.
      + intros t l. rewrite E0 in Hp. cbn [bind] in Hp. injection Hp as <-. reflexivity. }
  destruct (match raw with Some _ => _ | None => _ end) as [[rx ev1]|u]; [|discriminate].
  specialize (Hr _ eq_refl). cbn [fst snd] in Hr. destruct Hr as (Ha & Hq & Ht). cbn [bind] in H.
  assert (Hq0 : forall q, lring_is (srx s) q -> exists q', lring_is rx q' /\ rx_replay ev1 q = Some q').
  { intros q Hqq. destruct (Hq q [] Hqq) as (q' & H1 & H2). rewrite app_nil_r in H2. eauto. }
  assert (Ht0 : forall t, tx_replay ev1 t = Some t).
  { intro t. specialize (Ht t []). rewrite app_nil_r in Ht. exact Ht. }
  destruct (0 <? avail (lr (stx s))) eqn:Eav.
  - destruct (ring_pull_spec (lr (stx s)) (proj1 Htx) (proj2 Htx)) as (x & Hx & Ep).
    unfold ring_read, rd in H. rewrite Hx in H. cbn [bind] in H. destruct acc.
    + unfold lr_pull in H. rewrite Ep in H. cbn [bind] in H. injection H as <- <-. cbn [srx stx lr avail].
      splits; auto; try lia.
      * intros q Hqq. destruct (Hq q [EvSent x] Hqq) as (q' & H1 & H2). exists q'. rewrite H2. auto.
      * intros t Htt. destruct t as [|c t].
        { destruct (lring_is_avail _ _ Htt) as [Ha0 _]. cbn in Ha0. lia. }
        destruct (lr_pull_is _ _ _ Htt) as (l' & E & Hl & _). unfold lr_pull in E. rewrite Ep in E. cbn [bind] in E.
        injection E as <- <-. exists t. split; [exact Hl|]. rewrite Ht. cbn [tx_replay]. rewrite Ascii.eqb_refl. reflexivity.
    + injection H as <- <-. cbn [srx stx]. splits; eauto.
  - injection H as <- <-. cbn [srx stx]. splits; eauto.
Qed.

Lemma run_isrs_mono : forall is s s' ev, serial_wf s -> run_isrs s is = Ok (s', ev) ->
  avail (lr (srx s)) <= avail (lr (srx s')) /\ avail (lr (stx s')) <= avail (lr (stx s)) /\
  (forall q, lring_is (srx s) q -> exists q', lring_is (srx s') q' /\ rx_replay ev q = Some q') /\
  (forall t, lring_is (stx s) t -> exists t', lring_is (stx s') t' /\ tx_replay ev t = Some t').
Proof.
  induction is as [|i is IH]; intros s s' ev Hwf H; cbn [run_isrs] in H.
  - injection H as <- <-. splits; eauto.
  - destruct (transfer_wf s i Hwf) as (s1 & e1 & E1 & Hw1 & _). rewrite E1 in H. cbn [bind] in H.
    destruct (run_isrs s1 is) as [[s2 e2]|u] eqn:E2; [|discriminate]. cbn [bind] in H. injection H as <- <-.
    destruct (transfer_mono _ _ _ _ Hwf E1) as (A1 & A2 & A3 & A4). destruct (IH _ _ _ Hw1 E2) as (B1 & B2 & B3 & B4).
    splits; try lia.
    + intros q Hq. destruct (A3 q Hq) as (q1 & Hq1 & R1). destruct (B3 q1 Hq1) as (q2 & Hq2 & R2).
      exists q2. rewrite rx_replay_app, R1. auto.
    + intros t Ht. destruct (A4 t Ht) as (t1 & Ht1 & R1). destruct (B4 t1 Ht1) as (t2 & Ht2 & R2).
      exists t2. rewrite tx_replay_app, R1. auto.
Qed.

(** Only interrupts happened. *)
Definition quiet (y y' : sys) : Prop :=
  exists ev, sstep y y' ev /\ Forall isr_ev ev /\ rxav y <= rxav y' /\ txav y' <= txav y.

Lemma isr_point_quiet : forall y, serial_wf (ser y) -> exists y', isr_point y = Ok y' /\ quiet y y'.
Proof.
  intros y Hwf. destruct (isr_point_wf y Hwf) as (y' & ev & E & Hw & Hc & Hl & He & Hf).
  exists y'. split; [exact E|]. exists ev. unfold sstep.
  destruct y as [s sch lg]. unfold isr_point in E. cbn [sched ser slog] in *. destruct sch as [|is rest].
  - injection E as <-. cbn [slog ser] in *. assert (ev = []) as -> by (apply (app_inv_head lg); rewrite app_nil_r; auto).
    unfold rxav, txav. splits; auto; cbn [ser]; eauto.
  - destruct (run_isrs s is) as [[s' ev']|u] eqn:Er; [|discriminate]. cbn [bind] in E. injection E as <-.
    cbn [ser slog sched] in *. apply app_inv_head in Hl. subst ev'.
    destruct (run_isrs_mono _ _ _ _ Hwf Er) as (A1 & A2 & A3 & A4).
    unfold rxav, txav. splits; auto; cbn [ser]; auto; discriminate.
Qed.

Lemma quiet_sstep : forall y y', quiet y y' -> exists ev, sstep y y' ev /\ taken ev = [] /\ put ev = [] /\ clean ev /\
  ~ In EvFlushed ev.
Proof.
  intros y y' (ev & H & He & _). exists ev. destruct (isr_ev_quiet ev He) as (A & B & C). splits; auto.
  intro Hin. rewrite Forall_forall in He. exact (He _ Hin).
Qed.

(** *** Single calls *)

(** Only the following bytes were written, all of them if there was room. *)
Definition wrote (y y' : sys) (s : bytes) : Prop :=
  exists ev, sstep y y' ev /\ clean ev /\ taken ev = [] /\ ~ In EvFlushed ev /\
    length (put ev) <= length s /\ (txav y + length s <= txsz y -> put ev = s) /\
    rxav y <= rxav y' /\ txav y' <= txav y + length (put ev).

Definition took (y y' : sys) (c : ascii) : Prop :=
  exists ev, sstep y y' ev /\ clean ev /\ taken ev = [c] /\ put ev = [] /\ ~ In EvFlushed ev /\
    rxav y <= S (rxav y') /\ txav y' <= txav y /\ readline_fuel y' < readline_fuel y.

Lemma s_avail_q : forall y, serial_wf (ser y) ->
  exists y', s_bytes_available y = Ok (rxav y', y') /\ quiet y y'.
Proof.
  intros y H. destruct (isr_point_quiet y H) as (y' & E & Q). exists y'. unfold s_bytes_available. rewrite E. auto.
Qed.
Lemma s_space_q : forall y, serial_wf (ser y) ->
  exists y', s_space_available y = Ok (txsz y' - txav y', y') /\ quiet y y'.
Proof.
  intros y H. destruct (isr_point_quiet y H) as (y' & E & Q). exists y'. unfold s_space_available. rewrite E. auto.
Qed.

Lemma s_copy_q : forall c y, serial_wf (ser y) ->
  exists y' ev, s_copy c y = Ok y' /\ sstep y y' ev /\ taken ev = [] /\ ~ In EvFlushed ev /\
    rxav y <= rxav y' /\ txav y' <= S (txav y) /\
    (clean ev /\ put ev = [c] \/ ~ clean ev /\ put ev = []) /\ (txav y < txsz y -> clean ev).
Proof.
  intros c y Hwf. unfold s_copy. destruct (isr_point_quiet y Hwf) as (y1 & E & (ev & S1 & He & Hr & Ht)).
  rewrite E. cbn [bind]. assert (Hw := sstep_wf _ _ _ S1). destruct Hw as [Hrx Htx].
  pose proof (ring_push_spec (lr (stx (ser y1))) c (proj1 Htx) (proj2 Htx)) as Ep.
  destruct (lr_push_wf _ c Htx) as (tx & E2 & Hw2 & Hs2).
  assert (Hav : avail (lr tx) <= S (txav y1) /\ (ring_is_full (lr (stx (ser y1))) = true -> avail (lr tx) = txav y1)).
  { unfold lr_push in E2. rewrite Ep in E2. cbn [bind] in E2. injection E2 as <-. cbn [lr avail]. unfold txav, ring_is_full.
    destruct (Nat.ltb_spec (avail (lr (stx (ser y1)))) (rsize (lr (stx (ser y1))))); split; try intro H0; try apply Nat.eqb_eq in H0; lia. }
  rewrite E2. cbn [bind].
  set (e0 := if ring_is_full (lr (stx (ser y1))) then EvMisuse else EvPut c).
  eexists. exists (ev ++ [e0]). split; [reflexivity|].
  destruct (isr_ev_quiet ev He) as (Q1 & Q2 & Q3).
  assert (Hnf : ~ In EvFlushed (ev ++ [e0])).
  { rewrite in_app_iff. intros [H|[H|[]]]; [rewrite Forall_forall in He; exact (He _ H)|].
    unfold e0 in H. destruct (ring_is_full _); discriminate. }
  split.
  { eapply sstep_trans; [exact S1|]. unfold sstep. cbn [ser slog sched].
    splits; auto.
    - split; assumption.
    - unfold caps; cbn [srx stx]; congruence.
    - intros q Hq Hcl. exists q. cbn [srx]. split; [exact Hq|]. unfold e0. destruct (ring_is_full _); reflexivity.
    - intros t Htt Hcl. cbn [stx]. unfold e0 in *. destruct (ring_is_full (lr (stx (ser y1)))) eqn:Ef; [discriminate Hcl|].
      destruct (lring_is_avail _ _ Htt) as [Ha Hle]. unfold ring_is_full in Ef. apply Nat.eqb_neq in Ef.
      destruct (lr_push_is _ _ c Htt ltac:(lia)) as (tx' & E' & Hl' & _). rewrite E2 in E'. injection E' as <-.
      exists (t ++ [c]). auto. }
  rewrite taken_app, put_app, Q1, Q2.
  split; [unfold e0; destruct (ring_is_full _); reflexivity|].
  split; [exact Hnf|].
  split; [unfold rxav in *; cbn [ser srx]; lia|].
  split; [unfold txav in *; cbn [ser stx]; lia|].
  assert (Hcl : clean (ev ++ [e0]) <-> ring_is_full (lr (stx (ser y1))) = false).
  { rewrite clean_app. unfold e0. destruct (ring_is_full _); split; intro H; try discriminate; try (destruct H; discriminate); try reflexivity.
    split; [assumption|reflexivity]. }
  split.
  - destruct (ring_is_full (lr (stx (ser y1)))) eqn:Ef.
    + right. split; [rewrite Hcl; discriminate|reflexivity].
    + left. split; [apply Hcl; reflexivity|reflexivity].
  - intro Hlt. apply Hcl. unfold ring_is_full. apply Nat.eqb_neq. destruct (sstep_caps _ _ _ S1) as [_ Hsz].
    unfold txav, txsz in *. lia.
Qed.

Lemma s_read_q : forall y, serial_wf (ser y) -> 0 < rxav y ->
  exists c y', s_read y = Ok (c, y') /\ took y y' c.
Proof.
  intros y Hwf Hpos. unfold s_read. destruct (isr_point_quiet y Hwf) as (y1 & E & (ev & S1 & He & Hr & Ht)).
  rewrite E. cbn [bind]. assert (Hw := sstep_wf _ _ _ S1). destruct Hw as [Hrx Htx].
  destruct (lr_pull_wf _ Hrx) as (c & rx & E2 & Hw2 & Hs2 & Ha2). rewrite E2. cbn [bind].
  destruct (Nat.eqb_spec (avail (lr (srx (ser y1)))) 0) as [H0|H0]; [unfold rxav in *; lia|].
  do 2 eexists. split; [reflexivity|]. exists (ev ++ [EvTaken c]).
  destruct (isr_ev_quiet ev He) as (Q1 & Q2 & Q3).
  rewrite taken_app, put_app, Q1, Q2.
  assert (Hf1 : readline_fuel y1 <= readline_fuel y) by apply S1.
  splits; auto.
  - eapply sstep_trans; [exact S1|]. unfold sstep. cbn [ser slog sched]. splits; auto.
    + split; assumption.
    + unfold caps; cbn [srx stx]; congruence.
    + unfold readline_fuel; cbn [ser sched srx]; lia.
    + intros q Hq Hcl. cbn [srx]. destruct q as [|x q]; [destruct (lring_is_avail _ _ Hq) as [Ha _]; cbn in Ha; lia|].
      destruct (lr_pull_is _ _ _ Hq) as (rx' & E' & Hl' & _). rewrite E2 in E'. injection E' as <- <-.
      exists q. cbn [rx_replay]. rewrite Ascii.eqb_refl. auto.
    + intros t Htt _. exists t. auto.
  - apply clean_app. split; [assumption|reflexivity].
  - rewrite in_app_iff. intros [H|[H|[]]]; [rewrite Forall_forall in He; exact (He _ H)|discriminate].
  - unfold rxav in *; cbn [ser srx]; lia.
  - unfold readline_fuel in *; cbn [ser sched srx]. lia.
Qed.

Lemma wrote_trans : forall y1 y2 y3 a b, wrote y1 y2 a -> wrote y2 y3 b -> wrote y1 y3 (a ++ b).
Proof.
  intros y1 y2 y3 a b (e1 & A1 & A2 & A3 & A4 & A5 & A6 & A7 & A8) (e2 & B1 & B2 & B3 & B4 & B5 & B6 & B7 & B8).
  exists (e1 ++ e2). rewrite taken_app, put_app, A3, B3, !app_length.
  destruct (sstep_caps _ _ _ A1) as [_ Hsz].
  splits; auto; try lia.
  - eapply sstep_trans; eassumption.
  - apply clean_app; auto.
  - rewrite in_app_iff. tauto.
  - intro H. rewrite A6 by lia. f_equal. apply B6. rewrite A6 in A8 by lia. lia.
Qed.

Lemma quiet_wrote : forall y1 y2 y3 a, quiet y1 y2 -> wrote y2 y3 a -> wrote y1 y3 a.
Proof.
  intros y1 y2 y3 a (e1 & A1 & A2 & A3 & A4) H. replace a with ([] ++ a) by reflexivity.
  eapply wrote_trans; [|exact H]. exists e1. destruct (isr_ev_quiet e1 A2) as (Q1 & Q2 & Q3).
  rewrite Q1, Q2. splits; auto; cbn; try lia.
  intro Hin. rewrite Forall_forall in A2. exact (A2 _ Hin).
Qed.

Lemma wrote_nil : forall y, serial_wf (ser y) -> wrote y y [].
Proof.
  intros y H. exists []. splits; auto; cbn; try lia.
  - apply sstep_refl; assumption. - reflexivity.
Qed.

Lemma s_copy_wrote : forall c y, serial_wf (ser y) -> txav y < txsz y -> exists y', s_copy c y = Ok y' /\ wrote y y' [c].
Proof.
  intros c y Hwf Hr. destruct (s_copy_q c y Hwf) as (y' & ev & E & S & T & F & R & X & D & C). specialize (C Hr).
  exists y'. split; [exact E|]. destruct D as [[_ Hp]|[Hn _]]; [|contradiction].
  exists ev. rewrite Hp. splits; auto; cbn; try lia.
Qed.

Lemma s_write_loop_wrote : forall n data y, serial_wf (ser y) -> n <= length data -> txav y + n <= txsz y ->
  exists y', s_write_loop n data y = Ok y' /\ wrote y y' (firstn n data).
Proof.
  induction n as [|n IH]; intros data y Hwf Hd Hr; cbn [s_write_loop].
  - exists y. split; [reflexivity|]. apply wrote_nil; assumption.
  - destruct data as [|c data]; [cbn in Hd; lia|].
    destruct (s_copy_wrote c y Hwf ltac:(lia)) as (y1 & E1 & W1). rewrite E1. cbn [bind].
    assert (W1' := W1). destruct W1' as (e1 & S1 & _ & _ & _ & L1 & _ & _ & X1).
    destruct (sstep_caps _ _ _ S1) as [_ Hsz]. cbn [length] in L1.
    destruct (IH data y1 (sstep_wf _ _ _ S1) ltac:(cbn in Hd; lia) ltac:(lia)) as (y2 & E2 & W2).
    exists y2. split; [exact E2|]. cbn [firstn]. exact (wrote_trans _ _ _ [c] _ W1 W2).
Qed.

(** write(data, size) *)
Lemma s_write_many_q : forall data n y, serial_wf (ser y) -> n <= length data ->
  exists k y', s_write_many data n y = Ok (k, y') /\ k <= n /\ wrote y y' (firstn k data) /\
    (txav y + n <= txsz y -> k = n) /\ (k < n -> txsz y <= txav y + k).
Proof.
  intros data n y Hwf Hd. unfold s_write_many. destruct (s_space_q y Hwf) as (y1 & E & Q). rewrite E. cbn [bind].
  assert (Q' := Q). destruct Q' as (ev & S1 & He & Hr & Ht). destruct (sstep_caps _ _ _ S1) as [_ Hsz].
  rewrite clip. set (k := Nat.min n (txsz y1 - txav y1)).
  assert (Hle : txav y1 <= txsz y1) by (destruct (sstep_wf _ _ _ S1) as [_ [(_ & H & _) _]]; exact H).
  destruct (s_write_loop_wrote k data y1 (sstep_wf _ _ _ S1) ltac:(lia) ltac:(lia)) as (y2 & E2 & W2).
  rewrite E2. cbn [bind]. exists k, y2. split; [reflexivity|]. split; [lia|].
  split; [exact (quiet_wrote _ _ _ _ Q W2)|]. split; lia.
Qed.

Lemma s_write_str_loop_wrote : forall str room y, serial_wf (ser y) -> In NUL str -> txav y + room <= txsz y ->
  exists y', s_write_str_loop str room y = Ok (Nat.min room (length (str_body str)), y') /\
    wrote y y' (firstn room (str_body str)).
Proof.
  induction str as [|c str IH]; intros room y Hwf Hin Hr; [destruct Hin|]. cbn [s_write_str_loop str_body].
  unfold aeqb. change "000"%char with NUL. destruct (Ascii.eqb_spec c NUL) as [->|Hne].
  - exists y. rewrite firstn_nil. cbn [length]. rewrite Nat.min_0_r. split; [reflexivity|]. apply wrote_nil; assumption.
  - destruct Hin as [Hin|Hin]; [congruence|]. destruct room as [|room].
    + exists y. split; [reflexivity|]. apply wrote_nil; assumption.
    + destruct (s_copy_wrote c y Hwf ltac:(lia)) as (y1 & E1 & W1). rewrite E1. cbn [bind].
      assert (W1' := W1). destruct W1' as (e1 & S1 & _ & _ & _ & L1 & _ & _ & X1).
      destruct (sstep_caps _ _ _ S1) as [_ Hsz]. cbn [length] in L1.
      destruct (IH room y1 (sstep_wf _ _ _ S1) Hin ltac:(lia)) as (y2 & E2 & W2). rewrite E2. cbn [bind].
      exists y2. split; [reflexivity|]. cbn [firstn]. exact (wrote_trans _ _ _ [c] _ W1 W2).
Qed.

Lemma wrote_prefix : forall y y' s k, (k < length s -> txsz y <= txav y + k) -> wrote y y' (firstn k s) -> wrote y y' s.
Proof.
  intros y y' s k Hk (ev & A1 & A2 & A3 & A4 & A5 & A6 & A7 & A8). exists ev. rewrite firstn_length in *.
  splits; auto; try lia. intro Hr. destruct (le_lt_dec (length s) k) as [Hl|Hl].
  - rewrite A6 by lia. apply firstn_all2. assumption.
  - specialize (Hk Hl). rewrite A6 by lia. apply firstn_all2. lia.
Qed.

(** write(str) *)
Lemma s_write_str_q : forall str y, serial_wf (ser y) -> In NUL str ->
  exists k y', s_write_str str y = Ok (k, y') /\ wrote y y' (str_body str) /\ k <= length (str_body str).
Proof.
  intros str y Hwf Hin. unfold s_write_str. destruct (s_space_q y Hwf) as (y1 & E & Q). rewrite E. cbn [bind].
  assert (Q' := Q). destruct Q' as (ev & S1 & He & Hr & Ht). destruct (sstep_caps _ _ _ S1) as [_ Hsz].
  assert (Hle : txav y1 <= txsz y1) by (destruct (sstep_wf _ _ _ S1) as [_ [(_ & H & _) _]]; exact H).
  destruct (s_write_str_loop_wrote str (txsz y1 - txav y1) y1 (sstep_wf _ _ _ S1) Hin ltac:(lia)) as (y2 & E2 & W2).
  rewrite E2. do 2 eexists. split; [reflexivity|]. split; [|lia].
  eapply quiet_wrote; [exact Q|]. eapply wrote_prefix; [|exact W2]. lia.
Qed.

(** flushReceiveBuffers *)
Lemma s_flush_q : forall y, serial_wf (ser y) ->
  exists y' ev, s_flush y = Ok y' /\ sstep y y' ev /\ clean ev /\ taken ev = [] /\ put ev = [] /\
    rxav y' = 0 /\ txav y' <= txav y /\ lring_is (srx (ser y')) [] /\
    (forall q, rx_replay ev q = Some []).
Proof.
  intros y Hwf. unfold s_flush. destruct (isr_point_quiet y Hwf) as (y1 & E & (ev & S1 & He & Hr & Ht)).
  rewrite E. cbn [bind]. assert (Hw := sstep_wf _ _ _ S1). destruct Hw as [Hrx Htx].
  do 1 eexists. exists (ev ++ [EvFlushed]). split; [reflexivity|].
  destruct (isr_ev_quiet ev He) as (Q1 & Q2 & Q3). rewrite taken_app, put_app, Q1, Q2.
  destruct (ring_flush_ok (lr (srx (ser y1))) (proj1 Hrx)) as [F1 F2].
  assert (Hfl : lring_is (lr_flush (srx (ser y1))) []) by (split; [exact F1|]; split; [exact F2|reflexivity]).
  assert (Hwf1 : lring_wf (lr_flush (srx (ser y1)))) by (split; [exact (proj1 F1)|exact (proj2 Hrx)]).
  splits; auto.
  - eapply sstep_trans; [exact S1|]. unfold sstep. cbn [ser slog sched]. splits; auto.
    + split; [|exact Htx]. exact Hwf1.
    + unfold readline_fuel; cbn [ser sched srx lr_flush lr ring_flush avail]. lia.
    + intros q _ _. exists []. auto.
    + intros t Htt _. exists t. auto.
  - apply clean_app. split; [assumption|reflexivity].
  - intro q. rewrite rx_replay_app. clear -He. revert q. induction ev as [|e ev IH]; intro q; [reflexivity|].
    inversion He; subst. destruct e; cbn [rx_replay]; try contradiction; apply IH; assumption.
Qed.
