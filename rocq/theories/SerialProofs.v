(** Lemmas about the serial port model. *)
From Coq Require Import Ascii ZArith List Bool Arith Lia ZifyBool ZifyNat.
From Verif Require Import Base QueueSpec LineSpec SerialSpec Ring RingProofs LineRing LineRingProofs Serial.
Import ListNotations.
Ltac Zify.zify_post_hook ::= Z.div_mod_to_equations.

(** *** The record of events *)

Lemma rx_replay_app : forall l1 l2 q,
  rx_replay (l1 ++ l2) q = match rx_replay l1 q with Some q' => rx_replay l2 q' | None => None end.
Proof.
  induction l1 as [|e l1 IH]; intros l2 q; [reflexivity|].
  destruct e; cbn [rx_replay app]; try apply IH.
  destruct q as [|x q]; [reflexivity|]. destruct (Ascii.eqb x c); [apply IH|reflexivity].
Qed.

Lemma tx_replay_app : forall l1 l2 q,
  tx_replay (l1 ++ l2) q = match tx_replay l1 q with Some q' => tx_replay l2 q' | None => None end.
Proof.
  induction l1 as [|e l1 IH]; intros l2 q; [reflexivity|].
  destruct e; cbn [tx_replay app]; try apply IH.
  destruct q as [|x q]; [reflexivity|]. destruct (Ascii.eqb x c); [apply IH|reflexivity].
Qed.

Lemma taken_app : forall a b, taken (a ++ b) = taken a ++ taken b.
Proof. induction a as [|e a IH]; intro b; [reflexivity|]. destruct e; cbn; rewrite IH; reflexivity. Qed.
Lemma put_app : forall a b, put (a ++ b) = put a ++ put b.
Proof. induction a as [|e a IH]; intro b; [reflexivity|]. destruct e; cbn; rewrite IH; reflexivity. Qed.
Lemma sent_app : forall a b, sent (a ++ b) = sent a ++ sent b.
Proof. induction a as [|e a IH]; intro b; [reflexivity|]. destruct e; cbn; rewrite IH; reflexivity. Qed.
Lemma stored_app : forall a b, stored (a ++ b) = stored a ++ stored b.
Proof. induction a as [|e a IH]; intro b; [reflexivity|]. destruct e; cbn; rewrite IH; reflexivity. Qed.

Lemma clean_app : forall a b, clean (a ++ b) <-> clean a /\ clean b.
Proof. intros a b. unfold clean. rewrite existsb_app. destruct (existsb is_misuse a), (existsb is_misuse b); cbn; tauto. Qed.

(** Events interrupts can cause. *)
Ltac splits := repeat match goal with |- _ /\ _ => split end.
Definition isr_ev (e : event) : Prop :=
  match e with EvStored _ | EvDropped _ | EvSent _ => True | _ => False end.

Lemma isr_ev_quiet : forall ev, Forall isr_ev ev -> taken ev = [] /\ put ev = [] /\ clean ev.
Proof.
  induction ev as [|e ev IH]; intro H; [repeat split|].
  inversion H as [|? ? He Hev]; subst. destruct (IH Hev) as (H1 & H2 & H3).
  destruct e; cbn in *; try contradiction; repeat split; auto.
Qed.

(** *** Well-formedness: kept by everything *)

Definition lring_wf (l : lring) : Prop := ring_wf (lr l) /\ 0 < rsize (lr l).
Definition serial_wf (s : serial) : Prop := lring_wf (srx s) /\ lring_wf (stx s).

(** The port holds [q] received and [t] unsent bytes. *)
Definition serial_is (s : serial) (q t : list ascii) : Prop :=
  lring_is (srx s) q /\ lring_is (stx s) t.

Definition caps (s : serial) : nat * nat := (rsize (lr (srx s)), rsize (lr (stx s))).

Lemma lr_push_wf : forall l c, lring_wf l -> exists l', lr_push l c = Ok l' /\ lring_wf l' /\ rsize (lr l') = rsize (lr l).
Proof.
  intros l c [Hwf Hs]. pose proof (ring_push_spec (lr l) c Hwf Hs) as E.
  pose proof (ring_push_wf _ _ _ Hwf E) as Hwf'. unfold lr_push. rewrite E. cbn [bind].
  eexists. split; [reflexivity|]. unfold lring_wf; cbn [lr]. split; [split; [exact Hwf'|exact Hs]|reflexivity].
Qed.

Lemma lr_pull_wf : forall l, lring_wf l -> exists c l', lr_pull l = Ok (c, l') /\ lring_wf l' /\
  rsize (lr l') = rsize (lr l) /\ avail (lr l') = avail (lr l) - 1.
Proof.
  intros l [Hwf Hs]. destruct (ring_pull_spec (lr l) Hwf Hs) as (x & Hx & E).
  pose proof (ring_pull_wf _ _ _ Hwf E) as Hwf'. unfold lr_pull. rewrite E. cbn [bind].
  do 2 eexists. split; [reflexivity|]. unfold lring_wf; cbn [lr].
  split; [split; [exact Hwf'|exact Hs]|split; reflexivity].
Qed.

Lemma transfer_wf : forall s i, serial_wf s -> exists s' ev, transfer s i = Ok (s', ev) /\
  serial_wf s' /\ caps s' = caps s /\ Forall isr_ev ev /\ avail (lr (srx s')) <= avail (lr (srx s)) + 1.
Proof.
  intros s [raw acc] [Hrx Htx]. unfold transfer.
  assert (H1 : exists rx ev1, match raw with
    | Some d => if negb (ring_is_full (lr (srx s)))
        then (let* rx := lr_push (srx s) d in Ok (rx, [EvStored d]))%res else Ok (srx s, [EvDropped d])
    | None => Ok (srx s, []) end = Ok (rx, ev1) /\ lring_wf rx /\ rsize (lr rx) = rsize (lr (srx s)) /\
      Forall isr_ev ev1 /\ avail (lr rx) <= avail (lr (srx s)) + 1).
  { destruct raw as [d|].
    - destruct (ring_is_full (lr (srx s))) eqn:Ef; cbn [negb].
      + exists (srx s), [EvDropped d]. splits; auto; try lia. constructor; [exact I|constructor].
      + pose proof (ring_push_spec (lr (srx s)) d (proj1 Hrx) (proj2 Hrx)) as E0.
        destruct (lr_push_wf (srx s) d Hrx) as (rx & E & Hw & Hs). rewrite E. cbn [bind].
        exists rx, [EvStored d]. splits; auto; [constructor; [exact I|constructor]|].
        unfold lr_push in E. rewrite E0 in E. cbn [bind] in E. injection E as <-. cbn [lr avail].
        destruct (avail (lr (srx s)) <? rsize (lr (srx s))); lia.
    - exists (srx s), []. splits; auto. lia. }
  destruct H1 as (rx & ev1 & E1 & Hw1 & Hs1 & Hev1 & Hav). rewrite E1. cbn [bind].
  destruct (0 <? avail (lr (stx s))).
  - destruct (ring_pull_spec (lr (stx s)) (proj1 Htx) (proj2 Htx)) as (x & Hx & _).
    unfold ring_read, rd. rewrite Hx. cbn [bind]. destruct acc.
    + destruct (lr_pull_wf (stx s) Htx) as (c & tx & E & Hw & Hs & _). rewrite E. cbn [bind].
      do 2 eexists. split; [reflexivity|]. split; [split; assumption|].
      split; [unfold caps; cbn [srx stx]; congruence|].
      split; [apply Forall_app; split; [exact Hev1|constructor; [exact I|constructor]]|exact Hav].
    + do 2 eexists. split; [reflexivity|]. split; [split; assumption|].
      split; [unfold caps; cbn [srx stx]; congruence|]. auto.
  - do 2 eexists. split; [reflexivity|]. split; [split; assumption|].
    split; [unfold caps; cbn [srx stx]; congruence|]. auto.
Qed.

Lemma run_isrs_wf : forall is s, serial_wf s -> exists s' ev, run_isrs s is = Ok (s', ev) /\
  serial_wf s' /\ caps s' = caps s /\ Forall isr_ev ev /\
  avail (lr (srx s')) <= avail (lr (srx s)) + length is.
Proof.
  induction is as [|i is IH]; intros s Hwf; cbn [run_isrs].
  - exists s, []. splits; auto. lia.
  - destruct (transfer_wf s i Hwf) as (s1 & e1 & E1 & Hw1 & Hc1 & He1 & Ha1). rewrite E1. cbn [bind].
    destruct (IH s1 Hw1) as (s2 & e2 & E2 & Hw2 & Hc2 & He2 & Ha2). rewrite E2. cbn [bind].
    exists s2, (e1 ++ e2). split; [reflexivity|]. split; [exact Hw2|]. split; [congruence|].
    split; [apply Forall_app; auto|]. cbn [length]. lia.
Qed.

Lemma isr_point_wf : forall y, serial_wf (ser y) -> exists y' ev, isr_point y = Ok y' /\
  serial_wf (ser y') /\ caps (ser y') = caps (ser y) /\ slog y' = slog y ++ ev /\ Forall isr_ev ev /\
  readline_fuel y' <= readline_fuel y.
Proof.
  intros [s sch lg] Hwf. unfold isr_point. cbn [sched ser slog] in *. destruct sch as [|is rest].
  - eexists; exists []. split; [reflexivity|]. cbn [ser slog]. rewrite app_nil_r. splits; auto.
  - destruct (run_isrs_wf is s Hwf) as (s' & ev & E & Hw & Hc & He & Ha). rewrite E. cbn [bind].
    exists (mkSys s' rest (lg ++ ev)), ev. split; [reflexivity|]. cbn [ser slog]. split; [exact Hw|].
    split; [exact Hc|]. split; [reflexivity|]. split; [exact He|].
    unfold readline_fuel; cbn [ser sched concat]. rewrite app_length. lia.
Qed.

Lemma s_read_wf : forall y, serial_wf (ser y) -> exists c y' ev, s_read y = Ok (c, y') /\
  serial_wf (ser y') /\ caps (ser y') = caps (ser y) /\ slog y' = slog y ++ ev /\
  readline_fuel y' <= readline_fuel y.
Proof.
  intros y Hwf. unfold s_read.
  destruct (isr_point_wf y Hwf) as (y1 & ev & E & Hw & Hc & Hl & _ & Hf). rewrite E. cbn [bind].
  destruct Hw as [Hrx Htx]. destruct (lr_pull_wf _ Hrx) as (c & rx & E2 & Hw2 & Hs2 & Ha2). rewrite E2. cbn [bind].
  do 3 eexists. split; [reflexivity|]. cbn [ser slog]. split; [split; assumption|].
  split; [rewrite <- Hc; unfold caps; cbn [srx stx]; congruence|].
  split; [rewrite Hl, <- app_assoc; reflexivity|].
  unfold readline_fuel in *; cbn [ser sched srx]. lia.
Qed.

Lemma s_read_loop_wf : forall n y, serial_wf (ser y) -> exists cs y' ev, s_read_loop n y = Ok (cs, y') /\
  serial_wf (ser y') /\ caps (ser y') = caps (ser y) /\ slog y' = slog y ++ ev.
Proof.
  induction n as [|n IH]; intros y Hwf; cbn [s_read_loop].
  - do 2 eexists. exists []. rewrite app_nil_r. splits; first [reflexivity|exact Hwf].
  - destruct (s_read_wf y Hwf) as (c & y1 & e1 & E1 & Hw1 & Hc1 & Hl1 & _). rewrite E1. cbn [bind].
    destruct (IH y1 Hw1) as (cs & y2 & e2 & E2 & Hw2 & Hc2 & Hl2). rewrite E2. cbn [bind].
    do 2 eexists. exists (e1 ++ e2). split; [reflexivity|]. split; [exact Hw2|]. split; [congruence|].
    rewrite Hl2, Hl1, app_assoc. reflexivity.
Qed.

Lemma s_copy_wf : forall c y, serial_wf (ser y) -> exists y' ev, s_copy c y = Ok y' /\
  serial_wf (ser y') /\ caps (ser y') = caps (ser y) /\ slog y' = slog y ++ ev.
Proof.
  intros c y Hwf. unfold s_copy.
  destruct (isr_point_wf y Hwf) as (y1 & ev & E & Hw & Hc & Hl & _ & Hf). rewrite E. cbn [bind].
  destruct Hw as [Hrx Htx]. destruct (lr_push_wf _ c Htx) as (tx & E2 & Hw2 & Hs2). rewrite E2. cbn [bind].
  do 2 eexists. split; [reflexivity|]. cbn [ser slog]. split; [split; assumption|].
  split; [rewrite <- Hc; unfold caps; cbn [srx stx]; congruence|].
  rewrite Hl, <- app_assoc; reflexivity.
Qed.

Lemma s_write_loop_wf : forall n data y, serial_wf (ser y) -> n <= length data ->
  exists y' ev, s_write_loop n data y = Ok y' /\
  serial_wf (ser y') /\ caps (ser y') = caps (ser y) /\ slog y' = slog y ++ ev.
Proof.
  induction n as [|n IH]; intros data y Hwf Hd; cbn [s_write_loop].
  - eexists. exists []. rewrite app_nil_r. splits; first [reflexivity|exact Hwf].
  - destruct data as [|c data]; [cbn in Hd; lia|].
    destruct (s_copy_wf c y Hwf) as (y1 & e1 & E1 & Hw1 & Hc1 & Hl1). rewrite E1. cbn [bind].
    destruct (IH data y1 Hw1 ltac:(cbn in Hd; lia)) as (y2 & e2 & E2 & Hw2 & Hc2 & Hl2). rewrite E2.
    eexists. exists (e1 ++ e2). split; [reflexivity|]. split; [exact Hw2|]. split; [congruence|].
    rewrite Hl2, Hl1, app_assoc. reflexivity.
Qed.

Lemma s_write_str_loop_wf : forall str room y, serial_wf (ser y) -> In NUL str ->
  exists k y' ev, s_write_str_loop str room y = Ok (k, y') /\
  serial_wf (ser y') /\ caps (ser y') = caps (ser y) /\ slog y' = slog y ++ ev.
Proof.
  induction str as [|c str IH]; intros room y Hwf Hin; [destruct Hin|]. cbn [s_write_str_loop].
  unfold aeqb. destruct (Ascii.eqb_spec c NUL) as [->|Hne].
  - do 2 eexists. exists []. rewrite app_nil_r. splits; first [reflexivity|exact Hwf].
  - destruct Hin as [Hin|Hin]; [congruence|]. destruct room as [|room].
    + do 2 eexists. exists []. rewrite app_nil_r. splits; first [reflexivity|exact Hwf].
    + destruct (s_copy_wf c y Hwf) as (y1 & e1 & E1 & Hw1 & Hc1 & Hl1). rewrite E1. cbn [bind].
      destruct (IH room y1 Hw1 Hin) as (k & y2 & e2 & E2 & Hw2 & Hc2 & Hl2). rewrite E2. cbn [bind].
      do 2 eexists. exists (e1 ++ e2). split; [reflexivity|]. split; [exact Hw2|]. split; [congruence|].
      rewrite Hl2, Hl1, app_assoc. reflexivity.
Qed.

Lemma s_readline_loop_wf : forall fuel c room y, serial_wf (ser y) -> readline_fuel y <= fuel ->
  exists cs y' ev, s_readline_loop fuel c room y = Ok (cs, y') /\
  serial_wf (ser y') /\ caps (ser y') = caps (ser y) /\ slog y' = slog y ++ ev.
Proof.
  induction fuel as [|fuel IH]; intros c room y Hwf Hf; cbn [s_readline_loop]; unfold s_bytes_available;
    destruct (isr_point_wf y Hwf) as (y1 & ev & E & Hw & Hc & Hl & _ & Hf1); rewrite E; cbn [bind].
  - assert (Ha : avail (lr (srx (ser y1))) = 0) by (unfold readline_fuel in *; lia). rewrite Ha.
    cbn [Nat.ltb Nat.leb andb]. exists [], y1, ev. auto.
  - destruct ((0 <? avail (lr (srx (ser y1)))) && negb (aeqb c LF)) eqn:Ec.
    2:{ exists [], y1, ev. auto. }
    apply andb_true_iff in Ec as [Ha _]. apply Nat.ltb_lt in Ha.
    unfold s_read. destruct (isr_point_wf y1 Hw) as (y2 & ev2 & E2 & Hw2 & Hc2 & Hl2 & _ & Hf2). rewrite E2. cbn [bind].
    destruct Hw2 as [Hrx Htx]. destruct (lr_pull_wf _ Hrx) as (x & rx & E3 & Hw3 & Hs3 & Ha3). rewrite E3. cbn [bind].
    assert (Hpos : 0 < avail (lr (srx (ser y2)))).
    { (* interrupts never remove received bytes *)
      destruct (avail (lr (srx (ser y2)))) eqn:Ea2; [|lia].
      exfalso. clear -E2 Ea2 Ha Hw. destruct y1 as [s sch lg]. unfold isr_point in E2. cbn [sched ser slog] in *.
      destruct sch as [|is rest]; [injection E2 as <-; cbn in *; lia|].
      assert (Hmono : forall is s s' ev, serial_wf s -> run_isrs s is = Ok (s', ev) -> avail (lr (srx s)) <= avail (lr (srx s'))).
      { clear. induction is as [|i is IH]; intros s s' ev Hwf H; cbn [run_isrs] in H.
        - injection H as <- <-. auto.
        - destruct (transfer_wf s i Hwf) as (s1 & e1 & E1 & Hw1 & _). rewrite E1 in H. cbn [bind] in H.
          destruct (run_isrs s1 is) as [[s2 e2]|u] eqn:E2; [|discriminate]. cbn [bind] in H. injection H as <- <-.
          etransitivity; [|exact (IH _ _ _ Hw1 E2)]. clear E2 IH Hw1.
          destruct i as [raw acc]. unfold transfer in E1. destruct Hwf as [Hrx Htx].
          assert (Hr : forall rx, (match raw with
             | Some d => if negb (ring_is_full (lr (srx s)))
                then (let* rx := lr_push (srx s) d in Ok (rx, [EvStored d]))%res else Ok (srx s, [EvDropped d])
             | None => Ok (srx s, []) end) = Ok rx -> avail (lr (srx s)) <= avail (lr (fst rx))).
          { intros rx H. destruct raw as [d|]; [|injection H as <-; auto].
            destruct (ring_is_full (lr (srx s))); cbn [negb] in H; [injection H as <-; auto|].
            unfold lr_push in H. rewrite (ring_push_spec (lr (srx s)) d (proj1 Hrx) (proj2 Hrx)) in H.
            cbn [bind] in H. injection H as <-. cbn [fst lr avail].
            destruct (avail (lr (srx s)) <? rsize (lr (srx s))); lia. }
          destruct (match raw with Some _ => _ | None => _ end) as [[rx ev1]|u]; [|discriminate].
          specialize (Hr _ eq_refl). cbn [fst] in Hr. cbn [bind] in E1.
          destruct (0 <? avail (lr (stx s))); [|injection E1 as <- <-; exact Hr].
          destruct (ring_read (lr (stx s))); [|discriminate]. cbn [bind] in E1.
          destruct acc; [|injection E1 as <- <-; exact Hr].
          destruct (lr_pull (stx s)) as [[c' tx]|u]; [|discriminate]. cbn [bind] in E1.
          injection E1 as <- <-. exact Hr. }
      destruct (run_isrs s is) as [[s' ev]|u] eqn:E; [|discriminate]. cbn [bind] in E2. injection E2 as <-.
      pose proof (Hmono _ _ _ _ Hw E). cbn [ser] in *. lia. }
    set (y3 := mkSys (mkSerial rx (stx (ser y2))) (sched y2) (slog y2 ++ [_])).
    assert (Hw3' : serial_wf (ser y3)) by (split; assumption).
    assert (Hc3 : caps (ser y3) = caps (ser y)).
    { rewrite <- Hc, <- Hc2. unfold caps; cbn [y3 ser srx stx]. congruence. }
    assert (Hl3 : exists e3, slog y3 = slog y ++ e3).
    { unfold y3. cbn [slog]. rewrite Hl2, Hl, <- !app_assoc. eauto. }
    destruct Hl3 as [e3 Hl3].
    assert (Hf3 : readline_fuel y3 <= fuel).
    { unfold y3. unfold readline_fuel in *; cbn [ser sched srx]. lia. }
    destruct room as [|room].
    + destruct (IH x 0 y3 Hw3' Hf3) as (cs & y4 & e4 & E4 & Hw4 & Hc4 & Hl4). exists cs, y4, (e3 ++ e4).
      rewrite E4. split; [reflexivity|]. split; [exact Hw4|]. split; [congruence|]. rewrite Hl4, Hl3, app_assoc. reflexivity.
    + destruct (IH x room y3 Hw3' Hf3) as (cs & y4 & e4 & E4 & Hw4 & Hc4 & Hl4). exists (x :: cs), y4, (e3 ++ e4).
      rewrite E4. split; [reflexivity|]. split; [exact Hw4|]. split; [congruence|]. rewrite Hl4, Hl3, app_assoc. reflexivity.
Qed.

Lemma s_exec_wf : forall c y, serial_wf (ser y) -> call_ok c -> exists out y' ev, s_exec c y = Ok (out, y') /\
  serial_wf (ser y') /\ caps (ser y') = caps (ser y) /\ slog y' = slog y ++ ev.
Proof.
  intros c y Hwf Hc.
  destruct (isr_point_wf y Hwf) as (y1 & ev & E & Hw & Hcp & Hl & _ & _).
  destruct c as [ | | |n| |n| | |data n|str|x| | ];
    cbn [s_exec call_ok] in *; unfold s_bytes_available, s_space_available, s_can_read_line, s_flush;
    try (rewrite E; cbn [bind]; eauto 10; fail).
  - unfold s_read_many, s_bytes_available. rewrite E. cbn [bind].
    destruct (s_read_loop_wf (if avail (lr (srx (ser y1))) <? n then avail (lr (srx (ser y1))) else n) y1 Hw)
      as (cs & y2 & e2 & E2 & Hw2 & Hc2 & Hl2). rewrite E2. cbn [bind].
    do 2 eexists. exists (ev ++ e2). split; [reflexivity|]. split; [exact Hw2|]. split; [congruence|].
    rewrite Hl2, Hl, app_assoc. reflexivity.
  - destruct (s_read_wf y Hwf) as (x & y2 & e2 & E2 & Hw2 & Hc2 & Hl2 & _). rewrite E2. cbn [bind]. eauto 10.
  - unfold s_readline. destruct n as [|m].
    + do 2 eexists. exists []. rewrite app_nil_r. splits; first [reflexivity|exact Hwf].
    + destruct (s_readline_loop_wf (readline_fuel y) NUL m y Hwf (Nat.le_refl _))
        as (cs & y2 & e2 & E2 & Hw2 & Hc2 & Hl2). rewrite E2. cbn [bind]. eauto 10.
  - rewrite E. cbn [bind]. do 2 eexists. exists (ev ++ [EvFlushed]). split; [reflexivity|]. cbn [ser slog].
    destruct Hw as [Hrx Htx]. split; [|split; [exact Hcp|rewrite Hl, app_assoc; reflexivity]].
    split; [|exact Htx]. split; [exact (proj1 (proj1 (ring_flush_ok _ (proj1 Hrx))))|exact (proj2 Hrx)].
  - unfold s_write_many, s_space_available. rewrite E. cbn [bind].
    destruct (s_write_loop_wf (if ring_space (lr (stx (ser y1))) <? n then ring_space (lr (stx (ser y1))) else n) data y1 Hw)
      as (y2 & e2 & E2 & Hw2 & Hc2 & Hl2); [rewrite clip; lia|]. rewrite E2. cbn [bind].
    do 2 eexists. exists (ev ++ e2). split; [reflexivity|]. split; [exact Hw2|]. split; [congruence|].
    rewrite Hl2, Hl, app_assoc. reflexivity.
  - unfold s_write_str, s_space_available. rewrite E. cbn [bind].
    destruct (s_write_str_loop_wf str (ring_space (lr (stx (ser y1)))) y1 Hw Hc)
      as (k & y2 & e2 & E2 & Hw2 & Hc2 & Hl2). rewrite E2. cbn [bind].
    do 2 eexists. exists (ev ++ e2). split; [reflexivity|]. split; [exact Hw2|]. split; [congruence|].
    rewrite Hl2, Hl, app_assoc. reflexivity.
  - unfold s_write. destruct (s_copy_wf x y Hwf) as (y2 & e2 & E2 & Hw2 & Hc2 & Hl2). rewrite E2. cbn [bind]. eauto 10.
  - do 2 eexists. exists []. rewrite app_nil_r. splits; first [reflexivity|exact Hwf].
  - do 2 eexists. exists []. rewrite app_nil_r. splits; first [reflexivity|exact Hwf].
Qed.

Lemma s_run_wf : forall cs s, serial_wf s -> Forall (fun p => call_ok (fst p)) cs ->
  exists s' outs, s_run s cs = Ok (s', outs) /\ serial_wf s' /\ caps s' = caps s.
Proof.
  induction cs as [|[c sch] cs IH]; intros s Hwf Hok; cbn [s_run].
  - exists s, []. splits; first [reflexivity|exact Hwf].
  - inversion Hok as [|? ? Hc Hcs]; subst.
    destruct (s_exec_wf c (mkSys s sch []) Hwf Hc) as (out & y & ev & E & Hw & Hcp & Hl). rewrite E. cbn [bind].
    destruct (run_isrs_wf (concat (sched y)) (ser y) Hw) as (s1 & e1 & E1 & Hw1 & Hc1 & _). rewrite E1. cbn [bind].
    destruct (IH s1 Hw1 Hcs) as (s2 & outs & E2 & Hw2 & Hc2). rewrite E2. cbn [bind].
    do 2 eexists. split; [reflexivity|]. split; [exact Hw2|]. cbn [ser] in Hcp. congruence.
Qed.

(** *** Functional behaviour *)

Lemma serial_is_wf : forall s q t, serial_is s q t -> 0 < fst (caps s) -> 0 < snd (caps s) -> serial_wf s.
Proof.
  intros s q t [Hr Ht] H1 H2. split; (split; [|assumption]); [exact (proj1 (proj1 Hr))|exact (proj1 (proj1 Ht))].
Qed.

Lemma transfer_is : forall s i q t, serial_is s q t ->
  exists s' ev a k, transfer s i = Ok (s', ev) /\ serial_is s' (q ++ a) (skipn k t) /\ caps s' = caps s /\
    Forall isr_ev ev /\ stored ev = a /\ sent ev = firstn k t /\
    rx_replay ev q = Some (q ++ a) /\ tx_replay ev t = Some (skipn k t).
Proof.
  intros s [raw acc] q t [Hrx Htx]. unfold transfer.
  destruct (lring_is_avail _ _ Hrx) as [Har Hler]. destruct (lring_is_avail _ _ Htx) as [Hat Hlet].
  assert (H1 : exists rx ev1 a, match raw with
    | Some d => if negb (ring_is_full (lr (srx s)))
        then (let* rx := lr_push (srx s) d in Ok (rx, [EvStored d]))%res else Ok (srx s, [EvDropped d])
    | None => Ok (srx s, []) end = Ok (rx, ev1) /\ lring_is rx (q ++ a) /\ rsize (lr rx) = rsize (lr (srx s)) /\
      Forall isr_ev ev1 /\ stored ev1 = a /\ sent ev1 = [] /\
      (forall l, rx_replay (ev1 ++ l) q = rx_replay l (q ++ a)) /\ (forall l t, tx_replay (ev1 ++ l) t = tx_replay l t)).
  { destruct raw as [d|].
    - rewrite (lring_is_full _ _ Hrx). destruct (Nat.eqb_spec (length q) (rsize (lr (srx s)))) as [Hf|Hf]; cbn [negb].
      + exists (srx s), [EvDropped d], []. rewrite app_nil_r. splits; auto. constructor; [exact I|constructor].
      + destruct (lr_push_is (srx s) q d Hrx ltac:(lia)) as (rx & E & Hw & Hs). rewrite E. cbn [bind].
        exists rx, [EvStored d], [d]. splits; auto. constructor; [exact I|constructor].
    - exists (srx s), [], []. rewrite app_nil_r. splits; auto. }
  destruct H1 as (rx & ev1 & a & E1 & Hw1 & Hs1 & Hev1 & Hst & Hse & Hrr & Hrt). rewrite E1. cbn [bind].
  rewrite Hat. destruct t as [|x t]; cbn [length Nat.ltb Nat.leb].
  - do 2 eexists. exists a, 0. split; [reflexivity|]. cbn [skipn firstn].
    specialize (Hrr []). specialize (Hrt [] []). rewrite app_nil_r in *.
    splits; auto. + split; assumption. + unfold caps; cbn [srx stx]; congruence.
  - assert (Hr : ring_read (lr (stx s)) = Ok x).
    { destruct Htx as (Hok & Hc & _). exact (ring_read_spec _ x t (proj1 Hok) Hc). }
    rewrite Hr. cbn [bind]. destruct acc.
    + destruct (lr_pull_is (stx s) x t Htx) as (tx & E & Hw & Hs). rewrite E. cbn [bind].
      do 2 eexists. exists a, 1. split; [reflexivity|]. cbn [skipn firstn].
      splits; auto.
      * split; assumption.
      * unfold caps; cbn [srx stx]; congruence.
      * apply Forall_app; split; [exact Hev1|constructor; [exact I|constructor]].
      * rewrite stored_app, Hst. cbn. apply app_nil_r.
      * rewrite sent_app, Hse. reflexivity.
      * rewrite Hrr. reflexivity.
      * rewrite Hrt. cbn [tx_replay]. rewrite Ascii.eqb_refl. reflexivity.
    + do 2 eexists. exists a, 0. split; [reflexivity|]. cbn [skipn firstn].
      specialize (Hrr []). specialize (Hrt [] (x :: t)). rewrite app_nil_r in *.
      splits; auto. * split; assumption. * unfold caps; cbn [srx stx]; congruence.
Qed.

Lemma run_isrs_is : forall is s q t, serial_is s q t ->
  exists s' ev a k, run_isrs s is = Ok (s', ev) /\ serial_is s' (q ++ a) (skipn k t) /\ caps s' = caps s /\
    Forall isr_ev ev /\ stored ev = a /\ sent ev = firstn k t /\
    rx_replay ev q = Some (q ++ a) /\ tx_replay ev t = Some (skipn k t).
Proof.
  induction is as [|i is IH]; intros s q t H; cbn [run_isrs].
  - exists s, [], [], 0. rewrite app_nil_r. splits; auto.
  - destruct (transfer_is s i q t H) as (s1 & e1 & a1 & k1 & E1 & H1 & C1 & F1 & St1 & Se1 & R1 & T1).
    rewrite E1. cbn [bind].
    destruct (IH s1 _ _ H1) as (s2 & e2 & a2 & k2 & E2 & H2 & C2 & F2 & St2 & Se2 & R2 & T2). rewrite E2. cbn [bind].
    exists s2, (e1 ++ e2), (a1 ++ a2).
    assert (Hsk : forall (l : list ascii) a b, skipn b (skipn a l) = skipn (a + b) l).
    { clear. intros l a b. revert l. induction a as [|a IH]; intro l; [reflexivity|].
      destruct l as [|x l]; cbn; [apply skipn_nil|apply IH]. }
    assert (Hfi : forall (l : list ascii) a b, firstn a l ++ firstn b (skipn a l) = firstn (a + b) l).
    { clear. intros l a b. revert l. induction a as [|a IH]; intro l; [reflexivity|].
      destruct l as [|x l]; cbn; [apply firstn_nil|now rewrite IH]. }
    exists (k1 + k2). rewrite app_assoc, <- Hsk, <- Hfi. splits; auto.
    + congruence.
    + apply Forall_app; auto.
    + rewrite stored_app. congruence.
    + rewrite sent_app. congruence.
    + rewrite rx_replay_app, R1. exact R2.
    + rewrite tx_replay_app, T1. exact T2.
Qed.

Lemma isr_point_is : forall y q t, serial_is (ser y) q t ->
  exists y' ev a k, isr_point y = Ok y' /\ serial_is (ser y') (q ++ a) (skipn k t) /\ caps (ser y') = caps (ser y) /\
    slog y' = slog y ++ ev /\ Forall isr_ev ev /\ stored ev = a /\
    rx_replay ev q = Some (q ++ a) /\ tx_replay ev t = Some (skipn k t) /\
    length (concat (sched y')) + length a <= length (concat (sched y)) /\ (sched y = [] -> a = [] /\ k = 0 /\ sched y' = []).
Proof.
  intros [s sch lg] q t H. unfold isr_point. cbn [sched ser slog] in *. destruct sch as [|is rest].
  - eexists; exists [], [], 0. split; [reflexivity|]. cbn [ser slog sched skipn]. rewrite !app_nil_r. splits; auto.
  - destruct (run_isrs_is is s q t H) as (s1 & e1 & a1 & k1 & E1 & H1 & C1 & F1 & St1 & Se1 & R1 & T1).
    rewrite E1. cbn [bind]. eexists; exists e1, a1, k1. split; [reflexivity|]. cbn [ser slog sched concat].
    splits; auto; try discriminate.
    rewrite app_length.
    assert (Hb : length a1 <= length is); [|lia]. rewrite <- St1. clear -E1. revert s s1 e1 E1.
    induction is as [|i is IH]; intros s s1 e1 E; cbn [run_isrs] in E; [injection E as <- <-; auto|].
    destruct (transfer s i) as [[s2 e2]|u] eqn:E2; [|discriminate]. cbn [bind] in E.
    destruct (run_isrs s2 is) as [[s3 e3]|u] eqn:E3; [|discriminate]. cbn [bind] in E. injection E as <- <-.
    rewrite stored_app, app_length. specialize (IH _ _ _ E3). cbn [length].
    assert (length (stored e2) <= 1); [|lia].
    destruct i as [raw acc]. unfold transfer in E2.
    assert (Hr : forall rx, (match raw with
       | Some d => if negb (ring_is_full (lr (srx s)))
          then (let* rx := lr_push (srx s) d in Ok (rx, [EvStored d]))%res else Ok (srx s, [EvDropped d])
       | None => Ok (srx s, []) end) = Ok rx -> length (stored (snd rx)) <= 1).
    { intros rx Hx. destruct raw as [d|]; [|injection Hx as <-; cbn; auto].
      destruct (ring_is_full (lr (srx s))); cbn [negb] in Hx; [injection Hx as <-; cbn; auto|].
      destruct (lr_push (srx s) d); [|discriminate]. injection Hx as <-. cbn. auto. }
    destruct (match raw with Some _ => _ | None => _ end) as [[rx ev1]|u]; [|discriminate].
    specialize (Hr _ eq_refl). cbn [snd] in Hr. cbn [bind] in E2.
    destruct (0 <? avail (lr (stx s))); [|injection E2 as <- <-; exact Hr].
    destruct (ring_read (lr (stx s))); [|discriminate]. cbn [bind] in E2.
    destruct acc; [|injection E2 as <- <-; exact Hr].
    destruct (lr_pull (stx s)) as [[c' tx]|u]; [|discriminate]. cbn [bind] in E2.
    injection E2 as <- <-. rewrite stored_app. cbn. rewrite app_nil_r. exact Hr.
Qed.

(** What a piece of a call does: events [ev], received bytes [q] to [q'],
    unsent bytes [t] to [t']. *)
Definition step_is (y y' : sys) (ev : list event) (q q' t t' : list ascii) : Prop :=
  serial_is (ser y') q' t' /\ caps (ser y') = caps (ser y) /\ slog y' = slog y ++ ev /\
  rx_replay ev q = Some q' /\ tx_replay ev t = Some t' /\ clean ev.

Lemma step_is_trans : forall y1 y2 y3 e1 e2 q1 q2 q3 t1 t2 t3,
  step_is y1 y2 e1 q1 q2 t1 t2 -> step_is y2 y3 e2 q2 q3 t2 t3 -> step_is y1 y3 (e1 ++ e2) q1 q3 t1 t3.
Proof.
  intros y1 y2 y3 e1 e2 q1 q2 q3 t1 t2 t3 (A1 & A2 & A3 & A4 & A5 & A6) (B1 & B2 & B3 & B4 & B5 & B6).
  unfold step_is. splits; auto.
  - congruence. - rewrite B3, A3, app_assoc. reflexivity.
  - rewrite rx_replay_app, A4. exact B4. - rewrite tx_replay_app, A5. exact B5.
  - apply clean_app; auto.
Qed.

Lemma isr_point_step : forall y q t, serial_is (ser y) q t ->
  exists y' ev a k, isr_point y = Ok y' /\ step_is y y' ev q (q ++ a) t (skipn k t) /\ Forall isr_ev ev /\
    length (concat (sched y')) + length a <= length (concat (sched y)) /\
    (sched y = [] -> a = [] /\ k = 0 /\ sched y' = []).
Proof.
  intros y q t H. destruct (isr_point_is y q t H) as (y' & ev & a & k & E & H1 & H2 & H3 & H4 & H5 & H6 & H7 & H8 & H9).
  exists y', ev, a, k. splits; auto. unfold step_is. splits; auto. apply isr_ev_quiet; assumption.
Qed.

Lemma s_read_step : forall y c q t, serial_is (ser y) (c :: q) t ->
  exists y' ev a k, s_read y = Ok (c, y') /\ step_is y y' ev (c :: q) (q ++ a) t (skipn k t) /\
    taken ev = [c] /\ put ev = [] /\
    length (concat (sched y')) + length a <= length (concat (sched y)) /\
    (sched y = [] -> a = [] /\ k = 0 /\ sched y' = []).
Proof.
  intros y c q t H. unfold s_read.
  destruct (isr_point_step y _ t H) as (y1 & ev & a & k & E & Hst & Hev & Hsch & Hnil). rewrite E. cbn [bind].
  assert (Hst0 := Hst). destruct Hst0 as (His & Hcap & _). destruct His as [Hrx Htx]. cbn [app] in Hrx.
  destruct (lr_pull_is _ _ _ Hrx) as (rx & E2 & Hw2 & Hs2). rewrite E2. cbn [bind].
  destruct (lring_is_avail _ _ Hrx) as [Ha _]. rewrite Ha. cbn [length Nat.eqb].
  destruct (isr_ev_quiet ev Hev) as (Q1 & Q2 & Q3).
  eexists. exists (ev ++ [EvTaken c]), a, k. split; [reflexivity|]. split.
  - eapply step_is_trans; [exact Hst|]. unfold step_is; cbn [ser slog]. splits.
    + split; assumption.
    + unfold caps in *; cbn [srx stx]. congruence.
    + reflexivity.
    + cbn [rx_replay app]. rewrite Ascii.eqb_refl. reflexivity.
    + reflexivity. + reflexivity.
  - rewrite taken_app, put_app, Q1, Q2. cbn [sched]. splits; auto.
Qed.

Lemma s_read_loop_step : forall n y q t, serial_is (ser y) q t -> n <= length q ->
  exists y' ev a k, s_read_loop n y = Ok (firstn n q, y') /\ step_is y y' ev q (skipn n q ++ a) t (skipn k t) /\
    taken ev = firstn n q /\ put ev = [] /\ (sched y = [] -> a = [] /\ k = 0 /\ sched y' = []).
Proof.
  induction n as [|n IH]; intros y q t H Hn; cbn [s_read_loop].
  - exists y, [], [], 0. cbn [firstn skipn]. splits; auto. unfold step_is. rewrite !app_nil_r. splits; auto; reflexivity.
  - destruct q as [|c q]; [cbn in Hn; lia|].
    destruct (s_read_step y c q t H) as (y1 & e1 & a1 & k1 & E1 & S1 & T1 & P1 & L1 & N1). rewrite E1. cbn [bind].
    assert (H1 := S1). destruct H1 as (H1 & _).
    assert (Hn' : n <= length (q ++ a1)) by (rewrite app_length; cbn in Hn; lia).
    destruct (IH y1 _ _ H1 Hn') as (y2 & e2 & a2 & k2 & E2 & S2 & T2 & P2 & N2). rewrite E2. cbn [bind firstn skipn].
    assert (Hf : firstn n (q ++ a1) = firstn n q) by (rewrite firstn_app; replace (n - length q) with 0 by (cbn in Hn; lia); cbn; apply app_nil_r).
    assert (Hs : skipn n (q ++ a1) = skipn n q ++ a1) by (rewrite skipn_app; replace (n - length q) with 0 by (cbn in Hn; lia); reflexivity).
    rewrite Hf in *. rewrite Hs in S2.
    assert (Hsk : forall (l : list ascii) a b, skipn b (skipn a l) = skipn (a + b) l).
    { clear. intros l a b. revert l. induction a as [|a IH]; intro l; [reflexivity|].
      destruct l as [|x l]; cbn; [apply skipn_nil|apply IH]. }
    exists y2, (e1 ++ e2), (a1 ++ a2), (k1 + k2). split; [reflexivity|].
    split; [rewrite app_assoc, <- Hsk; eapply step_is_trans; eassumption|].
    rewrite taken_app, put_app, T1, T2, P1, P2. splits; auto.
    intro Hsch. destruct (N1 Hsch) as (-> & -> & Hs1). destruct (N2 Hs1) as (-> & -> & Hs2). auto.
Qed.

Lemma s_copy_step : forall c y q t, serial_is (ser y) q t -> length t < snd (caps (ser y)) ->
  exists y' ev a k, s_copy c y = Ok y' /\ step_is y y' ev q (q ++ a) t (skipn k t ++ [c]) /\
    taken ev = [] /\ put ev = [c] /\ (sched y = [] -> a = [] /\ k = 0 /\ sched y' = []).
Proof.
  intros c y q t H Hroom. unfold s_copy.
  destruct (isr_point_step y _ t H) as (y1 & ev & a & k & E & Hst & Hev & Hsch & Hnil). rewrite E. cbn [bind].
  assert (Hst0 := Hst). destruct Hst0 as (His & Hcap & _). destruct His as [Hrx Htx].
  assert (Hroom' : length (skipn k t) < rsize (lr (stx (ser y1)))).
  { unfold caps in *. injection Hcap as _ Hc2. rewrite skipn_length. cbn in Hroom. lia. }
  destruct (lr_push_is _ _ c Htx Hroom') as (tx & E2 & Hw2 & Hs2). rewrite E2. cbn [bind].
  rewrite (lring_is_full _ _ Htx). destruct (Nat.eqb_spec (length (skipn k t)) (rsize (lr (stx (ser y1))))) as [|_]; [lia|].
  destruct (isr_ev_quiet ev Hev) as (Q1 & Q2 & Q3).
  eexists. exists (ev ++ [EvPut c]), a, k. split; [reflexivity|]. split.
  - eapply step_is_trans; [exact Hst|]. unfold step_is; cbn [ser slog]. splits.
    + split; assumption.
    + unfold caps in *; cbn [srx stx]. congruence.
    + reflexivity. + reflexivity. + reflexivity. + reflexivity.
  - rewrite taken_app, put_app, Q1, Q2. cbn [sched]. splits; auto.
Qed.

Lemma s_write_loop_step : forall n data y q t, serial_is (ser y) q t -> length t + n <= snd (caps (ser y)) -> n <= length data ->
  exists y' ev a t', s_write_loop n data y = Ok y' /\ step_is y y' ev q (q ++ a) t t' /\
    taken ev = [] /\ put ev = firstn n data /\ (sched y = [] -> a = [] /\ t' = t ++ firstn n data /\ sched y' = []).
Proof.
  induction n as [|n IH]; intros data y q t H Hroom Hd; cbn [s_write_loop].
  - exists y, [], [], t. splits; auto. + unfold step_is. rewrite !app_nil_r. splits; auto; reflexivity.
    + intros ->. rewrite app_nil_r. auto.
  - destruct data as [|c data]; [cbn in Hd; lia|].
    destruct (s_copy_step c y q t H ltac:(lia)) as (y1 & e1 & a1 & k1 & E1 & S1 & T1 & P1 & N1). rewrite E1. cbn [bind].
    assert (H1 := S1). destruct H1 as (H1 & C1 & _).
    destruct (IH data y1 _ _ H1) as (y2 & e2 & a2 & t2 & E2 & S2 & T2 & P2 & N2).
    { rewrite app_length, skipn_length, C1. cbn [length]. lia. } { cbn in Hd; lia. }
    rewrite E2. exists y2, (e1 ++ e2), (a1 ++ a2), t2. split; [reflexivity|].
    split; [rewrite app_assoc; eapply step_is_trans; eassumption|].
    rewrite taken_app, put_app, T1, T2, P1, P2. splits; auto.
    intro Hsch. destruct (N1 Hsch) as (-> & -> & Hs1). destruct (N2 Hs1) as (-> & -> & Hs2).
    splits; auto. cbn [skipn firstn]. rewrite <- app_assoc. reflexivity.
Qed.

Lemma s_write_str_loop_step : forall str room y q t, serial_is (ser y) q t -> length t + room <= snd (caps (ser y)) ->
  In NUL str ->
  exists k y' ev a t', s_write_str_loop str room y = Ok (k, y') /\ step_is y y' ev q (q ++ a) t t' /\
    taken ev = [] /\ k = Nat.min room (length (str_body str)) /\ put ev = firstn room (str_body str) /\
    (sched y = [] -> a = [] /\ t' = t ++ firstn room (str_body str) /\ sched y' = []).
Proof.
  induction str as [|c str IH]; intros room y q t H Hroom Hin; [destruct Hin|]. cbn [s_write_str_loop str_body].
  change "000"%char with NUL. unfold aeqb. destruct (Ascii.eqb_spec c NUL) as [->|Hne].
  - exists 0, y, [], [], t. splits; auto.
    + unfold step_is. rewrite !app_nil_r. splits; auto; reflexivity.
    + cbn [length]. lia. + rewrite firstn_nil. reflexivity.
    + intros ->. rewrite firstn_nil, app_nil_r. auto.
  - destruct Hin as [Hin|Hin]; [congruence|]. destruct room as [|room].
    + exists 0, y, [], [], t. splits; auto.
      * unfold step_is. rewrite !app_nil_r. splits; auto; reflexivity.
      * intros ->. rewrite app_nil_r. auto.
    + destruct (s_copy_step c y q t H ltac:(lia)) as (y1 & e1 & a1 & k1 & E1 & S1 & T1 & P1 & N1). rewrite E1. cbn [bind].
      assert (H1 := S1). destruct H1 as (H1 & C1 & _).
      destruct (IH room y1 _ _ H1) as (k & y2 & e2 & a2 & t2 & E2 & S2 & T2 & K2 & P2 & N2); auto.
      { rewrite app_length, skipn_length, C1. cbn [length]. lia. }
      rewrite E2. cbn [bind]. exists (S k), y2, (e1 ++ e2), (a1 ++ a2), t2. split; [reflexivity|].
      split; [rewrite app_assoc; eapply step_is_trans; eassumption|].
      rewrite taken_app, put_app, T1, T2, P1, P2. cbn [length firstn]. splits; auto; [lia|].
      intro Hsch. destruct (N1 Hsch) as (-> & -> & Hs1). destruct (N2 Hs1) as (-> & -> & Hs2).
      splits; auto. cbn [skipn]. rewrite <- app_assoc. reflexivity.
Qed.

Lemma readline_stop : forall fuel room y q t, serial_is (ser y) q t ->
  exists y' ev a k, s_readline_loop fuel LF room y = Ok ([], y') /\ step_is y y' ev q (q ++ a) t (skipn k t) /\
    Forall isr_ev ev /\ (sched y = [] -> a = [] /\ k = 0 /\ sched y' = []).
Proof.
  intros fuel room y q t H.
  destruct (isr_point_step y _ t H) as (y1 & ev & a & k & E & Hst & Hev & Hsch & Hnil).
  exists y1, ev, a, k. splits; auto.
  destruct fuel; cbn [s_readline_loop]; unfold s_bytes_available; rewrite E; cbn [bind aeqb];
    rewrite andb_false_r; reflexivity.
Qed.

Definition line_shape (l : list ascii) (q : list ascii) : Prop :=
  (exists body, l = body ++ [newline] /\ ~ In newline body) \/ (~ In newline l /\ q = []).

Lemma s_readline_loop_step : forall fuel c room y q t, serial_is (ser y) q t ->
  length q + length (concat (sched y)) <= fuel -> aeqb c LF = false ->
  exists cs y' ev q' t', s_readline_loop fuel c room y = Ok (cs, y') /\ step_is y y' ev q q' t t' /\
    cs = firstn room (taken ev) /\ put ev = [] /\
    ((exists body, taken ev = body ++ [newline] /\ ~ In newline body) \/ (~ In newline (taken ev) /\ q' = [])) /\
    (sched y = [] -> taken ev = fst (split_line q) /\ q' = snd (split_line q) /\ t' = t /\ sched y' = []).
Proof.
  induction fuel as [|fuel IH]; intros c room y q t H Hf Hc; cbn [s_readline_loop]; unfold s_bytes_available;
    destruct (isr_point_step y _ t H) as (y1 & e1 & a & k & E & S1 & Hev & Hsch & Hnil); rewrite E; cbn [bind];
    destruct (isr_ev_quiet e1 Hev) as (Q1 & Q2 & Q3); assert (H1 := S1); destruct H1 as (H1 & C1 & _);
    destruct (lring_is_avail _ _ (proj1 H1)) as [Ha _]; rewrite Ha, Hc.
  - destruct q; [|cbn in Hf; lia]. destruct a; [|cbn in Hsch, Hf; lia]. cbn [app length Nat.ltb Nat.leb andb].
    exists [], y1, e1, [], (skipn k t). rewrite Q1, firstn_nil. splits; auto.
    intro Hs. destruct (Hnil Hs) as (_ & -> & Hs'). auto.
  - destruct (q ++ a) as [|x q1] eqn:Eq1.
    + cbn [length Nat.ltb Nat.leb andb]. exists [], y1, e1, [], (skipn k t). rewrite Q1, firstn_nil. splits; auto.
      intro Hs. destruct (Hnil Hs) as (-> & -> & Hs'). rewrite app_nil_r in Eq1. subst q. auto.
    + cbn [length Nat.ltb Nat.leb andb negb].
      destruct (s_read_step y1 x q1 _ H1) as (y2 & e2 & a2 & k2 & E2 & S2 & T2 & P2 & L2 & N2). rewrite E2. cbn [bind].
      assert (H2 := S2). destruct H2 as (H2 & C2 & _).
      destruct (aeqb x LF) eqn:Ex.
      * assert (x = LF) by (apply Ascii.eqb_eq; exact Ex). subst x.
        destruct (readline_stop fuel (pred room) y2 _ _ H2) as (y3 & e3 & a3 & k3 & E3 & S3 & F3 & N3).
        destruct (isr_ev_quiet e3 F3) as (R1 & R2 & R3).
        assert (Erm : forall rm, exists y', s_readline_loop fuel LF rm y2 = Ok ([], y') /\ y' = y3).
        { intro rm. exists y3. split; [|reflexivity]. clear -E3.
          destruct fuel; cbn [s_readline_loop] in *; destruct (s_bytes_available y2) as [[n z]|u]; cbn [bind aeqb] in *;
            try discriminate; rewrite andb_false_r in *; exact E3. }
        exists (firstn room [LF]), y3, ((e1 ++ e2) ++ e3), ((q1 ++ a2) ++ a3), (skipn k3 (skipn k2 (skipn k t))).
        rewrite !taken_app, !put_app, Q1, T2, R1, Q2, P2, R2. cbn [app]. splits.
        -- destruct room as [|room]; destruct (Erm 0) as (y4 & E4 & ->); [rewrite E4; reflexivity|].
           destruct (Erm room) as (y5 & E5 & ->). rewrite E5. cbn [bind firstn]. rewrite firstn_nil. reflexivity.
        -- eapply step_is_trans; [eapply step_is_trans|]; eassumption.
        -- reflexivity. -- reflexivity.
        -- left. exists []. split; [reflexivity|]. intros [].
        -- intro Hs. destruct (Hnil Hs) as (-> & -> & Hs1). destruct (N2 Hs1) as (-> & -> & Hs2).
           destruct (N3 Hs2) as (-> & -> & Hs3). rewrite app_nil_r in Eq1. subst q. cbn [split_line].
           change (Ascii.eqb LF newline) with true. cbn [fst snd skipn]. rewrite !app_nil_r. splits; auto.
      * destruct (IH x (pred room) y2 _ _ H2) as (cs & y3 & e3 & q3 & t3 & E3 & S3 & CS & P3 & SH & N3); auto.
        { assert (Hlen : length (q ++ a) = S (length q1)) by (rewrite Eq1; reflexivity).
          rewrite app_length in *. lia. }
        assert (Hshape : (exists body, x :: taken e3 = body ++ [newline] /\ ~ In newline body) \/
                         (~ In newline (x :: taken e3) /\ q3 = [])).
        { assert (Hx : x <> newline) by (intros ->; discriminate).
          destruct SH as [(body & Eb & Hb)|(Hn & ->)].
          - left. exists (x :: body). rewrite Eb. split; [reflexivity|]. intros [Hi|Hi]; [congruence|auto].
          - right. split; [|reflexivity]. intros [Hi|Hi]; [congruence|auto]. }
        exists (firstn room (x :: taken e3)), y3, ((e1 ++ e2) ++ e3), q3, t3.
        rewrite !taken_app, !put_app, Q1, T2, Q2, P2, P3. cbn [app]. splits; auto.
        -- destruct room as [|room]; cbn [pred] in *; rewrite E3; [subst cs; reflexivity|].
           cbn [bind firstn]. subst cs. reflexivity.
        -- eapply step_is_trans; [eapply step_is_trans|]; eassumption.
        -- intro Hs. destruct (Hnil Hs) as (-> & -> & Hs1). destruct (N2 Hs1) as (-> & -> & Hs2).
           destruct (N3 Hs2) as (Ht & Hq & Htt & Hs3). rewrite app_nil_r in Eq1, Ht, Hq. subst q. cbn [split_line].
           assert (Hx : Ascii.eqb x newline = false) by exact Ex. rewrite Hx.
           destruct (split_line q1) as [ln rest]. cbn [fst snd] in *. rewrite Ht. splits; auto.
Qed.

(** One call from a state holding [q], [t]: either it is a misuse or it is explained. *)
Lemma s_exec_is : forall c y q t, serial_is (ser y) q t -> 0 < fst (caps (ser y)) -> 0 < snd (caps (ser y)) ->
  call_ok c -> slog y = [] ->
  exists out y' q' t', s_exec c y = Ok (out, y') /\
    (clean (slog y') -> serial_is (ser y') q' t' /\ caps (ser y') = caps (ser y) /\
       rx_replay (slog y') q = Some q' /\ tx_replay (slog y') t = Some t' /\ explains c out (slog y')).
Proof.
  intros c y q t H Hc1 Hc2 Hok Hlog.
  destruct (isr_point_step y _ t H) as (y1 & e1 & a & k & E & S1 & Hev & Hsch & Hnil).
  destruct (isr_ev_quiet e1 Hev) as (Q1 & Q2 & Q3). assert (H1 := S1).
  destruct H1 as (H1 & C1 & L1 & R1 & T1 & _). rewrite Hlog in L1. cbn [app] in L1.
  destruct (lring_is_avail _ _ (proj1 H1)) as [Ha _].
  destruct c as [ | | |n| |n| | |data n|str|x| | ]; cbn [s_exec call_ok explains] in *;
    unfold s_bytes_available, s_space_available, s_can_read_line, s_flush.
  - rewrite E. cbn [bind]. do 4 eexists. split; [reflexivity|]. rewrite L1. intros _. splits; eauto.
  - rewrite E. cbn [bind]. do 4 eexists. split; [reflexivity|]. rewrite L1. intros _. splits; eauto.
  - rewrite E. cbn [bind]. do 4 eexists. split; [reflexivity|]. rewrite L1. intros _. splits; eauto.
  - unfold s_read_many, s_bytes_available. rewrite E. cbn [bind]. rewrite Ha, clip.
    destruct (s_read_loop_step (Nat.min n (length (q ++ a))) y1 _ _ H1 ltac:(lia))
      as (y2 & e2 & a2 & k2 & E2 & S2 & T2 & P2 & _). rewrite E2. cbn [bind].
    pose proof (step_is_trans _ _ _ _ _ _ _ _ _ _ _ S1 S2) as (A1 & A2 & A3 & A4 & A5 & A6).
    rewrite Hlog in A3. cbn [app] in A3.
    do 4 eexists. split; [reflexivity|]. rewrite A3. intros _. splits; eauto.
    + rewrite taken_app, Q1, T2. cbn [app]. rewrite firstn_length. f_equal. lia.
    + rewrite taken_app, Q1, T2. cbn [app]. rewrite firstn_length. lia.
    + rewrite put_app, Q2, P2. reflexivity.
  - destruct (q ++ a) as [|x q1] eqn:Eq1.
    + (* read() on an empty buffer *)
      unfold s_read. rewrite E. cbn [bind].
      assert (Hw : lring_wf (srx (ser y1))).
      { split; [exact (proj1 (proj1 (proj1 H1)))|]. unfold caps in C1. injection C1 as -> _. exact Hc1. }
      destruct (lr_pull_wf _ Hw) as (x & rx & E2 & _). rewrite E2. cbn [bind].
      rewrite Ha. cbn [length Nat.eqb]. exists (OElem x). eexists. exists [], []. split; [reflexivity|].
      cbn [slog]. intro Hcl. apply clean_app in Hcl as [_ Hcl]. discriminate.
    + assert (Hne : exists r, s_read y = Ok (x, r) /\ exists e2, slog r = e1 ++ e2 /\ e2 = [EvTaken x] /\
                serial_is (ser r) q1 (skipn k t) /\ caps (ser r) = caps (ser y)).
      { unfold s_read. rewrite E. cbn [bind].
        destruct (lr_pull_is _ _ _ (proj1 H1)) as (rx & E2 & Hw2 & Hs2). rewrite E2. cbn [bind].
        rewrite Ha. cbn [length Nat.eqb]. eexists. split; [reflexivity|]. exists [EvTaken x]. cbn [slog ser].
        rewrite L1. splits; auto.
        - split; [exact Hw2|exact (proj2 H1)].
        - unfold caps in *. cbn [srx stx]. congruence. }
      destruct Hne as (y2 & E2 & e2 & L2 & -> & H2 & C2). rewrite E2. cbn [bind].
      exists (OElem x), y2, q1, (skipn k t). split; [reflexivity|]. rewrite L2. intros _. splits; auto.
      * rewrite rx_replay_app, R1. cbn [rx_replay]. rewrite Ascii.eqb_refl. reflexivity.
      * rewrite tx_replay_app, T1. reflexivity.
      * exists x. rewrite taken_app, Q1. auto.
      * rewrite put_app, Q2. reflexivity.
  - unfold s_readline. destruct n as [|m].
    + exists (OCount 0), y, q, t. rewrite Hlog. split; [reflexivity|]. intros _. splits; auto.
    + destruct (s_readline_loop_step (readline_fuel y) NUL m y q t H) as (cs & y3 & e3 & q3 & t3 & E3 & S3 & CS & P3 & SH & N3).
      { unfold readline_fuel. destruct (lring_is_avail _ _ (proj1 H)) as [Hay _]. lia. } { reflexivity. }
      rewrite E3. cbn [bind]. destruct S3 as (A1 & A2 & A3 & A4 & A5 & A6). rewrite Hlog in A3. cbn [app] in A3.
      do 4 eexists. split; [reflexivity|]. rewrite A3. intros _. splits; eauto.
      * subst cs. reflexivity.
      * destruct SH as [SH|[SH _]]; auto.
  - rewrite E. cbn [bind]. do 4 eexists. split; [reflexivity|]. rewrite L1. intros _. splits; eauto.
  - rewrite E. cbn [bind]. do 4 eexists. split; [reflexivity|]. cbn [slog ser]. intros _.
    destruct (lr_flush_is _ _ (proj1 H1)) as [F1 F2]. rewrite L1. splits.
    + split; [exact F1|exact (proj2 H1)].
    + unfold caps in *. cbn [srx stx]. congruence.
    + rewrite rx_replay_app, R1. reflexivity.
    + rewrite tx_replay_app, T1. reflexivity.
    + rewrite taken_app, Q1. reflexivity.
    + rewrite put_app, Q2. reflexivity.
  - unfold s_write_many, s_space_available. rewrite E. cbn [bind].
    destruct (lring_is_avail _ _ (proj2 H1)) as [Hat Hlt].
    rewrite clip, (lring_is_space _ _ (proj2 H1)).
    set (kk := Nat.min n (rsize (lr (stx (ser y1))) - length (skipn k t))).
    destruct (s_write_loop_step kk data y1 _ _ H1) as (y2 & e2 & a2 & t2 & E2 & S2 & T2 & P2 & _).
    { unfold caps; cbn [snd]. lia. } { lia. }
    rewrite E2. cbn [bind]. pose proof (step_is_trans _ _ _ _ _ _ _ _ _ _ _ S1 S2) as (A1 & A2 & A3 & A4 & A5 & A6).
    rewrite Hlog in A3. cbn [app] in A3.
    assert (Hput : put (e1 ++ e2) = firstn kk data) by (rewrite put_app, Q2, P2; reflexivity).
    assert (Hlen : length (put (e1 ++ e2)) = kk) by (rewrite Hput, firstn_length; lia).
    do 4 eexists. split; [reflexivity|]. rewrite A3. intros _. rewrite Hlen. splits; eauto; [lia|].
    rewrite taken_app, Q1, T2. reflexivity.
  - unfold s_write_str, s_space_available. rewrite E. cbn [bind].
    destruct (lring_is_avail _ _ (proj2 H1)) as [Hat Hlt]. rewrite (lring_is_space _ _ (proj2 H1)).
    set (kk := rsize (lr (stx (ser y1))) - length (skipn k t)).
    destruct (s_write_str_loop_step str kk y1 _ _ H1) as (n & y2 & e2 & a2 & t2 & E2 & S2 & T2 & K2 & P2 & _).
    { unfold caps; cbn [snd]. lia. } { exact Hok. }
    rewrite E2. cbn [bind]. pose proof (step_is_trans _ _ _ _ _ _ _ _ _ _ _ S1 S2) as (A1 & A2 & A3 & A4 & A5 & A6).
    rewrite Hlog in A3. cbn [app] in A3.
    assert (Hput : put (e1 ++ e2) = firstn kk (str_body str)) by (rewrite put_app, Q2, P2; reflexivity).
    assert (Hlen : length (put (e1 ++ e2)) = n) by (rewrite Hput, firstn_length; lia).
    do 4 eexists. split; [reflexivity|]. rewrite A3. intros _. rewrite Hlen. splits; eauto.
    + rewrite Hput, K2. destruct (Nat.le_gt_cases kk (length (str_body str))).
      * rewrite Nat.min_l by lia. reflexivity.
      * rewrite Nat.min_r, firstn_all, firstn_all2 by lia. reflexivity.
    + rewrite taken_app, Q1, T2. reflexivity.
  - unfold s_write, s_copy. rewrite E. cbn [bind].
    assert (Hw : lring_wf (stx (ser y1))).
    { split; [exact (proj1 (proj1 (proj2 H1)))|]. unfold caps in C1. injection C1 as _ ->. exact Hc2. }
    rewrite (lring_is_full _ _ (proj2 H1)).
    destruct (Nat.eqb_spec (length (skipn k t)) (rsize (lr (stx (ser y1))))) as [Hf|Hf].
    + destruct (lr_push_wf _ x Hw) as (tx & E2 & _). rewrite E2. cbn [bind].
      exists ONone. eexists. exists [], []. split; [reflexivity|]. cbn [slog]. intro Hcl.
      apply clean_app in Hcl as [_ Hcl]. discriminate.
    + destruct (lring_is_avail _ _ (proj2 H1)) as [Hat Hlt].
      destruct (lr_push_is _ _ x (proj2 H1) ltac:(lia)) as (tx & E2 & Hw2 & Hs2). rewrite E2. cbn [bind].
      do 4 eexists. split; [reflexivity|]. cbn [slog ser]. rewrite L1. intros _. splits.
      * split; [exact (proj1 H1)|exact Hw2].
      * unfold caps in *. cbn [srx stx]. congruence.
      * rewrite rx_replay_app, R1. reflexivity.
      * rewrite tx_replay_app, T1. reflexivity.
      * reflexivity.
      * rewrite put_app, Q2. reflexivity.
      * rewrite taken_app, Q1. reflexivity.
  - exists (OCount (rsize (lr (srx (ser y))))), y, q, t. rewrite Hlog. split; [reflexivity|]. intros _. splits; auto.
  - exists (OCount (rsize (lr (stx (ser y))))), y, q, t. rewrite Hlog. split; [reflexivity|]. intros _. splits; auto.
Qed.

(** A whole history. *)
Lemma explains_quiet : forall c out ev e2, Forall isr_ev e2 -> explains c out ev -> explains c out (ev ++ e2).
Proof.
  intros c out ev e2 F H. destruct (isr_ev_quiet e2 F) as (Q1 & Q2 & _).
  unfold explains in *. rewrite taken_app, put_app, Q1, Q2, !app_nil_r. exact H.
Qed.

Lemma s_run_is : forall cs s q t s' outs, serial_is s q t -> 0 < fst (caps s) -> 0 < snd (caps s) ->
  Forall (fun p => call_ok (fst p)) cs -> s_run s cs = Ok (s', outs) -> clean (concat (map snd outs)) ->
  exists q' t', serial_is s' q' t' /\ caps s' = caps s /\
    rx_replay (concat (map snd outs)) q = Some q' /\ tx_replay (concat (map snd outs)) t = Some t' /\
    Forall2 (fun p o => explains (fst p) (fst o) (snd o)) cs outs.
Proof.
  induction cs as [|[c sch] cs IH]; intros s q t s' outs H Hc1 Hc2 Hok Hrun Hcl; cbn [s_run] in Hrun.
  - injection Hrun as <- <-. exists q, t. cbn. splits; auto.
  - inversion Hok as [|? ? Hc Hcs]; subst. cbn [fst] in Hc.
    destruct (s_exec_is c (mkSys s sch []) q t H Hc1 Hc2 Hc eq_refl) as (out & y & q1 & t1 & E & Hex).
    rewrite E in Hrun. cbn [bind] in Hrun.
    destruct (run_isrs (ser y) (concat (sched y))) as [[s1 e1]|u] eqn:E1; [|discriminate]. cbn [bind] in Hrun.
    destruct (s_run s1 cs) as [[s2 outs2]|u] eqn:E2; [|discriminate]. cbn [bind] in Hrun.
    injection Hrun as <- <-. cbn [map snd concat] in *. rewrite <- app_assoc in Hcl.
    apply clean_app in Hcl as [Hcl1 Hcl2]. apply clean_app in Hcl2 as [_ Hcl2].
    destruct (Hex Hcl1) as (H1 & C1 & R1 & T1 & X1). cbn [ser] in C1.
    destruct (run_isrs_is (concat (sched y)) (ser y) q1 t1 H1) as (s3 & e3 & a3 & k3 & E3 & H3 & C3 & F3 & _ & _ & R3 & T3).
    rewrite E1 in E3. injection E3 as <- <-.
    destruct (IH s1 _ _ s2 outs2 H3) as (q4 & t4 & H4 & C4 & R4 & T4 & X4); auto; try congruence.
    exists q4, t4. splits; auto.
    + congruence.
    + rewrite <- app_assoc, rx_replay_app, R1, rx_replay_app, R3. exact R4.
    + rewrite <- app_assoc, tx_replay_app, T1, tx_replay_app, T3. exact T4.
    + constructor; [cbn [fst snd]; apply explains_quiet; assumption|exact X4].
Qed.

(** *** Final forms *)

Lemma caps_new : forall rbuf wbuf, caps (serial_new rbuf wbuf) = (length rbuf, length wbuf).
Proof. reflexivity. Qed.

Lemma serial_new_is : forall rbuf wbuf, serial_is (serial_new rbuf wbuf) [] [].
Proof. intros. split; apply lring_new_is. Qed.

Lemma history_is : forall rbuf wbuf cs s outs, history rbuf wbuf cs s outs ->
  exists q t, serial_is s q t /\ caps s = (length rbuf, length wbuf) /\
    rx_replay (concat (map snd outs)) [] = Some q /\ tx_replay (concat (map snd outs)) [] = Some t /\
    Forall2 (fun p o => explains (fst p) (fst o) (snd o)) cs outs.
Proof.
  intros rbuf wbuf cs s outs (H1 & H2 & H3 & H4 & H5).
  exact (s_run_is cs _ [] [] s outs (serial_new_is rbuf wbuf) H1 H2 H3 H4 H5).
Qed.

Lemma serial_safe_lemma : forall rbuf wbuf cs, 1 <= length rbuf -> 1 <= length wbuf ->
  Forall (fun p => call_ok (fst p)) cs ->
  exists s outs, s_run (serial_new rbuf wbuf) cs = Ok (s, outs).
Proof.
  intros rbuf wbuf cs H1 H2 H3.
  destruct (s_run_wf cs (serial_new rbuf wbuf)) as (s & outs & E & _); eauto.
  apply (serial_is_wf _ [] []); auto. apply serial_new_is.
Qed.

Lemma serial_rx_lemma : forall rbuf wbuf cs s outs n, history rbuf wbuf cs s outs -> length rbuf <= n ->
  exists rest s' ev,
    rx_replay (concat (map snd outs)) [] = Some rest /\
    Forall2 (fun p o => explains (fst p) (fst o) (snd o)) cs outs /\
    s_run s [(SReadMany n, [])] = Ok (s', [(OData rest (length rest), ev)]).
Proof.
  intros rbuf wbuf cs s outs n H Hn. destruct (history_is _ _ _ _ _ H) as (q & t & His & Hc & R & T & X).
  destruct (lring_is_avail _ _ (proj1 His)) as [Ha Hle]. unfold caps in Hc. injection Hc as Hc1 Hc2.
  exists q. cbn [s_run s_exec]. unfold s_read_many, s_bytes_available, isr_point. cbn [sched bind ser].
  rewrite Ha, clip, Nat.min_r by lia.
  destruct (s_read_loop_step (length q) (mkSys s [] []) q t His (Nat.le_refl _)) as (y2 & e2 & a2 & k2 & E2 & S2 & T2 & P2 & N2).
  rewrite E2. cbn [bind]. destruct (N2 eq_refl) as (-> & -> & Hs). rewrite Hs. cbn [concat run_isrs bind].
  do 2 eexists. splits; auto. rewrite firstn_all. reflexivity.
Qed.

Lemma drain : forall n s q t, serial_is s q t -> length t <= n ->
  exists s' ev, run_isrs s (repeat (Transfer None true) n) = Ok (s', ev) /\ sent ev = t /\ serial_is s' q [].
Proof.
  induction n as [|n IH]; intros s q t H Hn; cbn [repeat run_isrs].
  - destruct t; [|cbn in Hn; lia]. exists s, []. splits; auto.
  - destruct (lring_is_avail _ _ (proj2 H)) as [Hat _]. destruct t as [|x t].
    + unfold transfer at 1. cbn [bind]. rewrite Hat. cbn [length Nat.ltb Nat.leb bind].
      replace (mkSerial (srx s) (stx s)) with s by (destruct s; reflexivity).
      destruct (IH s q [] H ltac:(cbn; lia)) as (s' & ev & E & S & I). rewrite E. cbn [bind app].
      exists s', ev. splits; auto.
    + unfold transfer at 1. cbn [bind]. rewrite Hat. cbn [length Nat.ltb Nat.leb].
      assert (Hr : ring_read (lr (stx s)) = Ok x).
      { destruct H as [_ (Hok & Hc & _)]. exact (ring_read_spec _ x t (proj1 Hok) Hc). }
      rewrite Hr. cbn [bind]. destruct (lr_pull_is _ _ _ (proj2 H)) as (tx & E2 & Hw2 & Hs2). rewrite E2. cbn [bind app].
      destruct (IH (mkSerial (srx s) tx) q t) as (s' & ev & E & S & I); [split; [exact (proj1 H)|exact Hw2]|cbn in Hn; lia|].
      rewrite E. cbn [bind app]. exists s', (EvSent x :: ev). cbn [sent]. splits; auto. congruence.
Qed.

Lemma serial_tx_lemma : forall rbuf wbuf cs s outs n, history rbuf wbuf cs s outs -> length wbuf <= n ->
  exists rest s' ev,
    tx_replay (concat (map snd outs)) [] = Some rest /\
    Forall2 (fun p o => explains (fst p) (fst o) (snd o)) cs outs /\
    s_run s [(SIdle, [repeat (Transfer None true) n])] = Ok (s', [(ONone, ev)]) /\ sent ev = rest.
Proof.
  intros rbuf wbuf cs s outs n H Hn. destruct (history_is _ _ _ _ _ H) as (q & t & His & Hc & R & T & X).
  destruct (lring_is_avail _ _ (proj2 His)) as [Ha Hle]. unfold caps in Hc. injection Hc as Hc1 Hc2.
  destruct (drain n s q t His ltac:(lia)) as (s' & ev & E & S & I).
  exists t, s', ev. splits; auto. cbn [s_run s_exec]. unfold isr_point. cbn [sched ser]. rewrite E.
  cbn [bind sched concat run_isrs ser slog app]. rewrite app_nil_r. reflexivity.
Qed.

(** No byte is invented: what is taken plus what is left is what was stored
    (histories without flush). *)
Lemma rx_replay_streams : forall log q rest, ~ In EvFlushed log -> rx_replay log q = Some rest ->
  q ++ stored log = taken log ++ rest.
Proof.
  induction log as [|e log IH]; intros q rest Hf H; cbn [rx_replay stored taken] in *.
  - injection H as <-. now rewrite app_nil_r.
  - assert (Hf' : ~ In EvFlushed log) by (intro; apply Hf; now right).
    destruct e; try (apply IH; assumption).
    + rewrite <- (IH (q ++ [c]) rest Hf' H), <- app_assoc. reflexivity.
    + destruct q as [|x q]; [discriminate|]. destruct (Ascii.eqb_spec x c) as [->|]; [|discriminate].
      cbn [app]. rewrite (IH q rest Hf' H). reflexivity.
    + exfalso. apply Hf. now left.
Qed.

Lemma tx_replay_streams : forall log t rest, tx_replay log t = Some rest -> t ++ put log = sent log ++ rest.
Proof.
  induction log as [|e log IH]; intros t rest H; cbn [tx_replay put sent] in *.
  - injection H as <-. now rewrite app_nil_r.
  - destruct e; try (apply IH; assumption).
    + rewrite <- (IH (t ++ [c]) rest H), <- app_assoc. reflexivity.
    + destruct t as [|x t]; [discriminate|]. destruct (Ascii.eqb_spec x c) as [->|]; [|discriminate].
      cbn [app]. rewrite (IH t rest H). reflexivity.
Qed.

Lemma rx_streams_lemma : forall rbuf wbuf cs s outs, history rbuf wbuf cs s outs ->
  ~ In EvFlushed (concat (map snd outs)) ->
  exists rest, length rest <= length rbuf /\
    stored (concat (map snd outs)) = taken (concat (map snd outs)) ++ rest.
Proof.
  intros rbuf wbuf cs s outs H Hf. destruct (history_is _ _ _ _ _ H) as (q & t & His & Hc & R & T & X).
  destruct (lring_is_avail _ _ (proj1 His)) as [Ha Hle]. unfold caps in Hc. injection Hc as Hc1 Hc2.
  exists q. split; [lia|]. exact (rx_replay_streams _ _ _ Hf R).
Qed.

Lemma tx_streams_lemma : forall rbuf wbuf cs s outs, history rbuf wbuf cs s outs ->
  exists rest, length rest <= length wbuf /\
    put (concat (map snd outs)) = sent (concat (map snd outs)) ++ rest.
Proof.
  intros rbuf wbuf cs s outs H. destruct (history_is _ _ _ _ _ H) as (q & t & His & Hc & R & T & X).
  destruct (lring_is_avail _ _ (proj2 His)) as [Ha Hle]. unfold caps in Hc. injection Hc as Hc1 Hc2.
  exists t. split; [lia|]. exact (tx_replay_streams _ _ _ T).
Qed.

Lemma read_many_lemma : forall rbuf wbuf cs s outs q n sch, history rbuf wbuf cs s outs ->
  rx_replay (concat (map snd outs)) [] = Some q ->
  exists y, s_exec (SReadMany n) (mkSys s ([] :: sch) []) = Ok (OData (firstn n q) (Nat.min n (length q)), y).
Proof.
  intros rbuf wbuf cs s outs q n sch H Hq. destruct (history_is _ _ _ _ _ H) as (q' & t & His & Hc & R & T & X).
  rewrite Hq in R. injection R as <-.
  destruct (lring_is_avail _ _ (proj1 His)) as [Ha Hle].
  cbn [s_exec]. unfold s_read_many, s_bytes_available, isr_point. cbn [sched ser run_isrs bind slog app].
  rewrite Ha, clip.
  destruct (s_read_loop_step (Nat.min n (length q)) (mkSys s sch []) q t His ltac:(lia)) as (y2 & e2 & a2 & k2 & E2 & _).
  rewrite E2. cbn [bind]. exists y2. do 3 f_equal.
  destruct (Nat.le_gt_cases n (length q)).
  - now rewrite Nat.min_l by lia.
  - rewrite Nat.min_r, firstn_all, firstn_all2 by lia. reflexivity.
Qed.

Lemma write_many_lemma : forall rbuf wbuf cs s outs t data n sch, history rbuf wbuf cs s outs ->
  tx_replay (concat (map snd outs)) [] = Some t -> n <= length data ->
  exists y, s_exec (SWriteMany data n) (mkSys s ([] :: sch) []) = Ok (OCount (Nat.min n (length wbuf - length t)), y) /\
            put (slog y) = firstn (Nat.min n (length wbuf - length t)) data.
Proof.
  intros rbuf wbuf cs s outs t data n sch H Ht Hd. destruct (history_is _ _ _ _ _ H) as (q & t' & His & Hc & R & T & X).
  rewrite Ht in T. injection T as <-.
  destruct (lring_is_avail _ _ (proj2 His)) as [Ha Hle]. assert (Hc' := Hc). unfold caps in Hc'. injection Hc' as Hc1 Hc2.
  cbn [s_exec]. unfold s_write_many, s_space_available, isr_point. cbn [sched ser run_isrs bind slog app].
  rewrite clip, (lring_is_space _ _ (proj2 His)), Hc2.
  destruct (s_write_loop_step (Nat.min n (length wbuf - length t)) data (mkSys s sch []) q t His)
    as (y2 & e2 & a2 & k2 & E2 & S2 & T2 & P2 & _).
  { cbn [ser]. rewrite Hc. cbn [snd]. lia. } { lia. }
  rewrite E2. cbn [bind]. exists y2. split; [reflexivity|]. destruct S2 as (_ & _ & L & _). rewrite L. exact P2.
Qed.

Lemma write_str_lemma : forall rbuf wbuf cs s outs t str sch, history rbuf wbuf cs s outs ->
  tx_replay (concat (map snd outs)) [] = Some t -> In "000"%char str ->
  exists y, s_exec (SWriteStr str) (mkSys s ([] :: sch) []) =
              Ok (OCount (Nat.min (length (str_body str)) (length wbuf - length t)), y) /\
            put (slog y) = firstn (length wbuf - length t) (str_body str).
Proof.
  intros rbuf wbuf cs s outs t str sch H Ht Hd. destruct (history_is _ _ _ _ _ H) as (q & t' & His & Hc & R & T & X).
  rewrite Ht in T. injection T as <-.
  destruct (lring_is_avail _ _ (proj2 His)) as [Ha Hle]. assert (Hc' := Hc). unfold caps in Hc'. injection Hc' as Hc1 Hc2.
  cbn [s_exec]. unfold s_write_str, s_space_available, isr_point. cbn [sched ser run_isrs bind slog app].
  rewrite (lring_is_space _ _ (proj2 His)), Hc2.
  destruct (s_write_str_loop_step str (length wbuf - length t) (mkSys s sch []) q t His)
    as (k & y2 & e2 & a2 & k2 & E2 & S2 & T2 & K2 & P2 & _).
  { cbn [ser]. rewrite Hc. cbn [snd]. lia. } { exact Hd. }
  rewrite E2. cbn [bind]. exists y2. rewrite K2, Nat.min_comm. split; [reflexivity|].
  destruct S2 as (_ & _ & L & _). rewrite L. exact P2.
Qed.

Lemma readline_quiet_lemma : forall rbuf wbuf cs s outs q m line rest, history rbuf wbuf cs s outs ->
  rx_replay (concat (map snd outs)) [] = Some q -> split_line q = (line, rest) ->
  exists y, s_exec (SReadLine (S m)) (mkSys s [] []) = Ok (OData (firstn m line ++ ["000"%char]) (Nat.min m (length line)), y) /\
            rx_replay (slog y) q = Some rest.
Proof.
  intros rbuf wbuf cs s outs q m line rest H Hq Hs. destruct (history_is _ _ _ _ _ H) as (q' & t & His & Hc & R & T & X).
  rewrite Hq in R. injection R as <-. destruct (lring_is_avail _ _ (proj1 His)) as [Ha Hle].
  cbn [s_exec s_readline].
  destruct (s_readline_loop_step (readline_fuel (mkSys s [] [])) NUL m (mkSys s [] []) q t His)
    as (c3 & y3 & e3 & q3 & t3 & E3 & S3 & CS & P3 & SH & N3).
  { unfold readline_fuel. cbn [ser sched concat length]. lia. } { reflexivity. }
  rewrite E3. cbn [bind]. destruct (N3 eq_refl) as (Ht & Hq3 & _ & _). rewrite Hs in *. cbn [fst snd] in *.
  exists y3. subst c3. rewrite Ht, firstn_length. split; [reflexivity|].
  destruct S3 as (_ & _ & L & R3 & _). rewrite L. subst q3. exact R3.
Qed.

Lemma readline_any_lemma : forall rbuf wbuf cs s outs m sch, history rbuf wbuf cs s outs ->
  exists y line q', s_exec (SReadLine (S m)) (mkSys s sch []) = Ok (OData (firstn m line ++ ["000"%char]) (Nat.min m (length line)), y) /\
    taken (slog y) = line /\ rx_replay (concat (map snd outs) ++ slog y) [] = Some q' /\
    ((exists body, line = body ++ [newline] /\ ~ In newline body) \/ (~ In newline line /\ q' = [])).
Proof.
  intros rbuf wbuf cs s outs m sch H. destruct (history_is _ _ _ _ _ H) as (q & t & His & Hc & R & T & X).
  destruct (lring_is_avail _ _ (proj1 His)) as [Ha Hle]. cbn [s_exec s_readline].
  destruct (s_readline_loop_step (readline_fuel (mkSys s sch [])) NUL m (mkSys s sch []) q t His)
    as (c3 & y3 & e3 & q3 & t3 & E3 & S3 & CS & P3 & SH & N3).
  { unfold readline_fuel. cbn [ser sched]. lia. } { reflexivity. }
  rewrite E3. cbn [bind]. destruct S3 as (_ & _ & L & R3 & _). cbn [slog app] in L.
  exists y3, (taken e3), q3. subst c3. rewrite firstn_length, L, rx_replay_app, R. splits; auto.
Qed.

Lemma can_read_line_lemma : forall rbuf wbuf cs s outs q sch, history rbuf wbuf cs s outs ->
  (Z.of_nat (length rbuf) < 65536)%Z -> rx_replay (concat (map snd outs)) [] = Some q ->
  exists y b, s_exec SCanReadLine (mkSys s ([] :: sch) []) = Ok (OBool b, y) /\ (b = true <-> In newline q).
Proof.
  intros rbuf wbuf cs s outs q sch H Hcap Hq. destruct (history_is _ _ _ _ _ H) as (q' & t & His & Hc & R & T & X).
  rewrite Hq in R. injection R as <-. destruct (lring_is_avail _ _ (proj1 His)) as [Ha Hle].
  unfold caps in Hc. injection Hc as Hc1 Hc2.
  cbn [s_exec]. unfold s_can_read_line, isr_point. cbn [sched ser run_isrs bind slog app].
  do 2 eexists. split; [reflexivity|]. destruct His as [(_ & _ & ->) _].
  pose proof (line_count_le q). 
  assert (Hin : In newline q <-> 0 < line_count q).
  { clear. induction q as [|c q IH]; cbn [In line_count]; [split; [intros []|lia]|].
    destruct (Ascii.eqb_spec c newline) as [->|Hne]; [split; [lia|auto]|].
    rewrite IH. split; [intros [?|?]; [congruence|assumption]|auto]. }
  rewrite Hin. unfold u16. lia.
Qed.

Lemma overflow_lemma : forall rbuf wbuf cs s outs q d, history rbuf wbuf cs s outs ->
  rx_replay (concat (map snd outs)) [] = Some q ->
  exists y ev, s_exec SIdle (mkSys s [[Transfer (Some d) false]] []) = Ok (ONone, y) /\
    slog y = [ev] /\
    (length q = length rbuf -> ev = EvDropped d) /\ (length q < length rbuf -> ev = EvStored d) /\
    rx_replay (slog y) q = Some (if length q =? length rbuf then q else q ++ [d]).
Proof.
  intros rbuf wbuf cs s outs q d H Hq. destruct (history_is _ _ _ _ _ H) as (q' & t & His & Hc & R & T & X).
  rewrite Hq in R. injection R as <-. destruct (lring_is_avail _ _ (proj1 His)) as [Ha Hle].
  unfold caps in Hc. injection Hc as Hc1 Hc2.
  assert (Htx : forall rx ev1, (if 0 <? avail (lr (stx s)) then
     (let* c := ring_read (lr (stx s)) in Ok (mkSerial rx (stx s), ev1)) else Ok (mkSerial rx (stx s), ev1))%res = Ok (mkSerial rx (stx s), ev1) :> res (serial * list event)).
  { intros rx ev1. destruct (lring_is_avail _ _ (proj2 His)) as [Hat _]. rewrite Hat.
    destruct t as [|x t]; [reflexivity|]. cbn [length Nat.ltb Nat.leb].
    destruct His as [_ (Hok & Hct & _)]. rewrite (ring_read_spec _ x t (proj1 Hok) Hct). reflexivity. }
  cbn [s_exec]. unfold isr_point. cbn [sched ser run_isrs slog app]. unfold transfer.
  rewrite (lring_is_full _ _ (proj1 His)), Hc1.
  destruct (Nat.eqb_spec (length q) (length rbuf)) as [Hf|Hf]; cbn [negb bind].
  - rewrite Htx. cbn [bind app]. eexists. exists (EvDropped d). cbn [slog]. splits; auto; try lia. 
  - destruct (lr_push_is _ _ d (proj1 His) ltac:(lia)) as (rx & E & _). rewrite E. cbn [bind]. rewrite Htx. cbn [bind app].
    eexists. exists (EvStored d). cbn [slog]. splits; auto; try lia.
Qed.
