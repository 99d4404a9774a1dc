(** C77: the Unix serial port with its buffers. *)
From Coq Require Import Ascii ZArith List Bool Arith Lia.
From Verif Require Import Base QueueSpec LineSpec SerialSpec Ring LineRing LineRingProofs RingProofs Serial SerialProofs UnixSerial UnixPort.
Import ListNotations.
Local Open Scope nat_scope.

(** What the program did to the port, without the model's state: whether the last
    open() or close() was an open() that found a terminal.  Independent of isOpen(). *)
Fixpoint connected (h : list pent) (v : bool) : bool :=
  match h with
  | [] => v
  | e :: h' =>
      connected h'
        match p_call e with
        | PPort (UOpen o) => match os_open o with Some _ => os_tty o | None => false end
        | PPort UClose => false
        | _ => v
        end
  end.

Definition fd_ok (u : unix) : Prop := ((u_fd u = -1)%Z \/ In (u_fd u) (u_fds u)) /\ Forall (fun f => (0 <= f)%Z) (u_fds u).

Lemma valid_in : forall u, unix_valid u = true <-> In (u_fd u) (u_fds u).
Proof.
  intros u. unfold unix_valid. rewrite existsb_exists. split.
  - intros (x & I & E). apply Z.eqb_eq in E. now subst.
  - intros I. exists (u_fd u). split; [exact I|apply Z.eqb_refl].
Qed.

Lemma minus_out : forall u, fd_ok u -> (u_fd u = -1)%Z -> unix_valid u = false.
Proof.
  intros u [_ F] E. destruct (unix_valid u) eqn:V; [|reflexivity]. apply valid_in in V.
  rewrite Forall_forall in F. specialize (F _ V). lia.
Qed.

Lemma fd_ok_new : fd_ok unix_new.
Proof. split; [now left|constructor]. Qed.

Lemma close_ok : forall u, fd_ok u -> fd_ok (unix_close u) /\ unix_valid (unix_close u) = false.
Proof.
  intros u H. assert (fd_ok (unix_close u)) as K.
  { split; [now left|]. cbn [unix_close u_fds]. destruct (_ <=? _)%Z; [|apply H].
    apply Forall_forall. intros x I. apply filter_In in I as [I _]. destruct H as [_ F].
    rewrite Forall_forall in F. exact (F _ I). }
  split; [exact K|]. apply minus_out; [exact K|reflexivity].
Qed.

Lemma call_fd : forall apple c u b u1,
  (forall o fd, c = UOpen o -> os_open o = Some fd -> (0 <= fd)%Z /\ ~ In fd (u_fds u)) ->
  unix_call apple c u = (b, u1) -> fd_ok u ->
  fd_ok u1 /\
  unix_valid u1 = match c with
                  | UOpen o => match os_open o with Some _ => os_tty o | None => false end
                  | UClose => false
                  | UConfig _ _ => unix_valid u
                  end.
Proof.
  intros apple c u b u1 K E H. destruct c as [o| |rate bits]; cbn [unix_call] in E.
  - unfold unix_open in E. destruct (os_open o) as [fd|] eqn:Eo.
    + destruct (K o fd eq_refl Eo) as [Hp Hn].
      assert (fd_ok (mkUnix (u_open u) fd (u_speed u) (u_bits u) (fd :: u_fds u) (u_line u))) as W.
      { split; [right; now left|]. cbn [u_fds]. constructor; [exact Hp|apply H]. }
      destruct (os_tty o); cbn [negb] in E.
      * assert (forall x y, unix_valid (mkUnix x fd (u_speed u) (u_bits u) (fd :: u_fds u) y) = true) as V.
        { intros x y. apply valid_in. now left. }
        destruct (os_get o), (os_speed o), (os_set o); cbn [negb] in E; injection E as <- <-; split; try exact W; try apply V.
      * injection E as <- <-. apply close_ok, W.
    + injection E as <- <-. assert (fd_ok (mkUnix (u_open u) (-1) (u_speed u) (u_bits u) (u_fds u) (u_line u))) as W.
      { split; [now left|apply H]. }
      split; [exact W|apply minus_out; [exact W|reflexivity]].
  - injection E as <- <-. apply close_ok, H.
  - unfold unix_config in E. destruct (unix_speed apple rate); [destruct (unix_bits bits)|]; injection E as <- <-;
      split; try reflexivity; exact H.
Qed.

Lemma hist_fd : forall apple u s h u' s', port_hist apple u s h u' s' -> fd_ok u ->
  fd_ok u' /\ unix_valid u' = connected h (unix_valid u).
Proof.
  induction 1 as [u s|u s c b u1 h u2 s2 K E H IH|u s c out y h u2 s2 O E H IH|u s rk wk s1 ev h u2 s2 E H IH];
    intros F; cbn [connected p_call]; auto.
  destruct (call_fd _ _ _ _ _ K E F) as [F1 V1]. destruct (IH F1) as [F2 V2]. split; [exact F2|].
  rewrite V2, V1. now destruct c.
Qed.

Lemma hist_split : forall apple h1 u s h2 u' s', port_hist apple u s (h1 ++ h2) u' s' ->
  exists u1 s1, port_hist apple u s h1 u1 s1 /\ port_hist apple u1 s1 h2 u' s'.
Proof.
  induction h1 as [|e h1 IH]; intros u s h2 u' s' H.
  - exists u, s. split; [constructor|exact H].
  - cbn [app] in H. inversion H; subst;
      match goal with P : port_hist _ _ _ (h1 ++ h2) _ _ |- _ => destruct (IH _ _ _ _ _ P) as (u3 & s3 & P1 & P2) end;
      exists u3, s3; (split; [econstructor; eassumption|exact P2]).
Qed.

Lemma hist_app : forall apple u s h1 u1 s1, port_hist apple u s h1 u1 s1 -> forall h2 u' s',
  port_hist apple u1 s1 h2 u' s' -> port_hist apple u s (h1 ++ h2) u' s'.
Proof. induction 1; intros; cbn [app]; [assumption|econstructor; eauto..]. Qed.

Lemma plog_app : forall h1 h2, p_log (h1 ++ h2) = p_log h1 ++ p_log h2.
Proof. intros. unfold p_log. now rewrite map_app, concat_app. Qed.

(** The buffers along a history. *)
Lemma hist_is : forall apple u s h u' s', port_hist apple u s h u' s' ->
  forall q t, serial_is s q t -> 0 < fst (caps s) -> 0 < snd (caps s) -> clean (p_log h) ->
  exists q' t', serial_is s' q' t' /\ caps s' = caps s /\
    rx_replay (p_log h) q = Some q' /\ tx_replay (p_log h) t = Some t'.
Proof.
  induction 1 as [u s|u s c b u1 h u2 s2 K E H IH|u s c out y h u2 s2 O E H IH|u s rk wk s1 ev h u2 s2 E H IH];
    intros q t I C1 C2 Cl.
  - exists q, t. splits; auto.
  - unfold p_log in *. cbn [map concat p_ev app] in *. eauto.
  - unfold p_log in *. cbn [map concat p_ev] in *. apply clean_app in Cl as [Ca Cb].
    destruct (s_exec_is c (mkSys s [] []) q t I C1 C2 O eq_refl) as (o2 & y2 & q2 & t2 & E2 & W).
    rewrite E in E2. injection E2 as <- <-. destruct (W Ca) as (I2 & K2 & R2 & T2 & _).
    cbn [ser] in K2. rewrite <- K2 in C1, C2. destruct (IH q2 t2 I2 C1 C2 Cb) as (q3 & t3 & I3 & K3 & R3 & T3).
    exists q3, t3. splits; [exact I3|congruence|now rewrite rx_replay_app, R2|now rewrite tx_replay_app, T2].
  - unfold p_log in *. cbn [map concat p_ev] in *. apply clean_app in Cl as [Ca Cb].
    destruct (transfer_is s (Transfer (unix_raw_read rk u) (unix_raw_write wk u)) q t I) as (s3 & ev3 & a & k & E3 & I3 & K3 & _ & _ & _ & R3 & T3).
    unfold unix_run in E. rewrite E in E3. injection E3 as <- <-.
    rewrite <- K3 in C1, C2. destruct (IH _ _ I3 C1 C2 Cb) as (q4 & t4 & I4 & K4 & R4 & T4).
    exists q4, t4. splits; [exact I4|congruence|now rewrite rx_replay_app, R3|now rewrite tx_replay_app, T3].
Qed.

(** Without interrupts, the calls move no byte from or to the terminal. *)
Definition still (y y' : sys) : Prop := sched y = [] -> sched y' = [] /\ wire (slog y') = wire (slog y).

Lemma still_trans : forall a b c, still a b -> still b c -> still a c.
Proof. intros a b c H1 H2 E. destruct (H1 E) as [E1 L1]. destruct (H2 E1) as [E2 L2]. split; congruence. Qed.

Lemma wire_app : forall a b, wire (a ++ b) = wire a ++ wire b.
Proof. intros. apply filter_app. Qed.

Lemma point_still : forall y y', isr_point y = Ok y' -> still y y'.
Proof. intros y y' H E. unfold isr_point in H. rewrite E in H. injection H as <-. auto. Qed.

Lemma read_still : forall y c y', s_read y = Ok (c, y') -> still y y'.
Proof.
  intros y c y' H. unfold s_read in H. destruct (isr_point y) as [y1|] eqn:E; [cbn [bind] in H|discriminate].
  destruct (lr_pull _) as [[c1 rx]|]; [cbn [bind] in H|discriminate]. injection H as <- <-.
  eapply still_trans; [apply point_still, E|]. intros E1. cbn [sched slog]. split; [exact E1|].
  rewrite wire_app. destruct (_ =? _); apply app_nil_r.
Qed.

Lemma copy_still : forall c y y', s_copy c y = Ok y' -> still y y'.
Proof.
  intros c y y' H. unfold s_copy in H. destruct (isr_point y) as [y1|] eqn:E; [cbn [bind] in H|discriminate].
  destruct (lr_push _ _) as [tx|]; [cbn [bind] in H|discriminate]. injection H as <-.
  eapply still_trans; [apply point_still, E|]. intros E1. cbn [sched slog]. split; [exact E1|].
  rewrite wire_app. destruct (ring_is_full _); apply app_nil_r.
Qed.

Lemma bytes_still : forall y n y', s_bytes_available y = Ok (n, y') -> still y y'.
Proof.
  intros y n y' H. unfold s_bytes_available in H. destruct (isr_point y) as [y1|] eqn:E; [cbn [bind] in H|discriminate].
  injection H as <- <-. apply point_still, E.
Qed.

Lemma space_still : forall y n y', s_space_available y = Ok (n, y') -> still y y'.
Proof.
  intros y n y' H. unfold s_space_available in H. destruct (isr_point y) as [y1|] eqn:E; [cbn [bind] in H|discriminate].
  injection H as <- <-. apply point_still, E.
Qed.

Lemma still_refl : forall y, still y y.
Proof. intros y E. auto. Qed.

Lemma read_loop_still : forall n y cs y', s_read_loop n y = Ok (cs, y') -> still y y'.
Proof.
  induction n as [|n IH]; intros y cs y' H; cbn [s_read_loop] in H; [injection H as <- <-; apply still_refl|].
  destruct (s_read y) as [[c y1]|] eqn:E; [cbn [bind] in H|discriminate].
  destruct (s_read_loop n y1) as [[cs2 y2]|] eqn:E2; [cbn [bind] in H|discriminate]. injection H as <- <-.
  eapply still_trans; [eapply read_still, E|eapply IH, E2].
Qed.

Lemma write_loop_still : forall n data y y', s_write_loop n data y = Ok y' -> still y y'.
Proof.
  induction n as [|n IH]; intros data y y' H; cbn [s_write_loop] in H; [injection H as <-; apply still_refl|].
  destruct data as [|c data]; [discriminate|].
  destruct (s_copy c y) as [y1|] eqn:E; [cbn [bind] in H|discriminate].
  eapply still_trans; [eapply copy_still, E|eapply IH, H].
Qed.

Lemma write_str_still : forall str room y k y', s_write_str_loop str room y = Ok (k, y') -> still y y'.
Proof.
  induction str as [|c str IH]; intros room y k y' H; cbn [s_write_str_loop] in H; [discriminate|].
  destruct (aeqb c NUL); [injection H as <- <-; apply still_refl|].
  destruct room as [|room]; [injection H as <- <-; apply still_refl|].
  destruct (s_copy c y) as [y1|] eqn:E; [cbn [bind] in H|discriminate].
  destruct (s_write_str_loop str room y1) as [[k2 y2]|] eqn:E2; [cbn [bind] in H|discriminate]. injection H as <- <-.
  eapply still_trans; [eapply copy_still, E|eapply IH, E2].
Qed.

Lemma readline_still : forall fuel c room y cs y', s_readline_loop fuel c room y = Ok (cs, y') -> still y y'.
Proof.
  induction fuel as [|fuel IH]; intros c room y cs y' H; cbn [s_readline_loop] in H;
    destruct (s_bytes_available y) as [[a y1]|] eqn:E; try discriminate; cbn [bind] in H;
    apply bytes_still in E; destruct (_ && _); try discriminate; try (injection H as <- <-; exact E).
  destruct (s_read y1) as [[c2 y2]|] eqn:E2; [cbn [bind] in H|discriminate]. apply read_still in E2.
  destruct room as [|room].
  - eapply still_trans; [exact E|]. eapply still_trans; [exact E2|]. eapply IH, H.
  - destruct (s_readline_loop fuel c2 room y2) as [[cs3 y3]|] eqn:E3; [cbn [bind] in H|discriminate]. injection H as <- <-.
    eapply still_trans; [exact E|]. eapply still_trans; [exact E2|]. eapply IH, E3.
Qed.

Lemma exec_still : forall c y out y', s_exec c y = Ok (out, y') -> still y y'.
Proof.
  intros c y out y' H. destruct c as [ | | |n| |n| | |data n|str|x| | ]; cbn [s_exec] in H.
  - destruct (isr_point y) as [y1|] eqn:E; [cbn [bind] in H|discriminate]. injection H as <- <-. apply point_still, E.
  - destruct (s_bytes_available y) as [[a y1]|] eqn:E; [cbn [bind] in H|discriminate]. injection H as <- <-. eapply bytes_still, E.
  - destruct (s_space_available y) as [[a y1]|] eqn:E; [cbn [bind] in H|discriminate]. injection H as <- <-. eapply space_still, E.
  - unfold s_read_many in H. destruct (s_bytes_available y) as [[a y1]|] eqn:E; [cbn [bind] in H|discriminate].
    destruct (s_read_loop _ y1) as [[cs y2]|] eqn:E2; [cbn [bind] in H|discriminate]. injection H as <- <-.
    eapply still_trans; [eapply bytes_still, E|eapply read_loop_still, E2].
  - destruct (s_read y) as [[a y1]|] eqn:E; [cbn [bind] in H|discriminate]. injection H as <- <-. eapply read_still, E.
  - unfold s_readline in H. destruct n as [|m]; [injection H as <- <-; apply still_refl|].
    destruct (s_readline_loop _ NUL m y) as [[cs y1]|] eqn:E; [cbn [bind] in H|discriminate]. injection H as <- <-.
    eapply readline_still, E.
  - unfold s_can_read_line in H. destruct (isr_point y) as [y1|] eqn:E; [cbn [bind] in H|discriminate].
    injection H as <- <-. apply point_still, E.
  - unfold s_flush in H. destruct (isr_point y) as [y1|] eqn:E; [cbn [bind] in H|discriminate]. injection H as <- <-.
    eapply still_trans; [apply point_still, E|]. intros E1. cbn [sched slog]. split; [exact E1|].
    rewrite wire_app. apply app_nil_r.
  - unfold s_write_many in H. destruct (s_space_available y) as [[a y1]|] eqn:E; [cbn [bind] in H|discriminate].
    destruct (s_write_loop _ data y1) as [y2|] eqn:E2; [cbn [bind] in H|discriminate]. injection H as <- <-.
    eapply still_trans; [eapply space_still, E|eapply write_loop_still, E2].
  - unfold s_write_str in H. destruct (s_space_available y) as [[a y1]|] eqn:E; [cbn [bind] in H|discriminate].
    destruct (s_write_str_loop str a y1) as [[k y2]|] eqn:E2; [cbn [bind] in H|discriminate]. injection H as <- <-.
    eapply still_trans; [eapply space_still, E|eapply write_str_still, E2].
  - unfold s_write in H. destruct (s_copy x y) as [y1|] eqn:E; [cbn [bind] in H|discriminate]. injection H as <- <-. eapply copy_still, E.
  - injection H as <- <-. apply still_refl.
  - injection H as <- <-. apply still_refl.
Qed.

Lemma run_closed : forall rk wk u s s1 ev, unix_run rk wk u s = Ok (s1, ev) -> unix_valid u = false -> ev = [].
Proof.
  intros rk wk u s s1 ev H V. unfold unix_run, unix_raw_read, unix_raw_write in H. rewrite V in H.
  unfold transfer in H. cbn [bind andb] in H. destruct (0 <? _).
  - destruct (ring_read _) as [c|]; [cbn [bind] in H|discriminate]. now injection H as _ <-.
  - now injection H as _ <-.
Qed.

(** Bytes pass only between open() and close(). *)
Theorem C77_unix_wire : forall apple s h1 e h2 u s', port_hist apple unix_new s (h1 ++ e :: h2) u s' ->
  wire (p_ev e) <> [] ->
  (exists rk wk, p_call e = PRun rk wk) /\
  exists h0 o b h3, h1 = h0 ++ mkPent (PPort (UOpen o)) b ONone [] :: h3 /\
    os_open o <> None /\ os_tty o = true /\
    (forall x, In x h3 -> match p_call x with PPort (UConfig _ _) | PBuf _ | PRun _ _ => True | _ => False end).
Proof.
  intros apple s h1 e h2 u s' H W. destruct (hist_split _ _ _ _ _ _ _ H) as (u1 & s1 & H1 & H2).
  destruct (hist_fd _ _ _ _ _ _ H1 fd_ok_new) as [F1 V1].
  inversion H2 as [|? ? c b ? ? ? ? K E P|? ? c out y ? ? ? O E P|? ? rk wk ? ev ? ? ? E P]; subst; cbn [p_ev p_call] in *.
  - contradiction.
  - exfalso. apply W. destruct (exec_still _ _ _ _ E eq_refl) as [_ L]. exact L.
  - split; [eauto|]. destruct (unix_valid u1) eqn:V; [|apply run_closed in E; [subst; contradiction|exact V]].
    clear - V1 H1. symmetry in V1. cbn [unix_new] in V1. change (unix_valid unix_new) with false in V1.
    revert V1 H1. generalize unix_new s u1 s1.
    induction h1 as [|x h1 IH] using rev_ind; intros u0 s0 u2 s2 C H; [discriminate|].
    destruct (hist_split _ _ _ _ _ _ _ H) as (u3 & s3 & H3 & H4).
    assert (forall a b v, connected (a ++ b) v = connected b (connected a v)) as App.
    { clear. induction a as [|z a IHa]; intros b v; [reflexivity|]. cbn [app connected]. apply IHa. }
    rewrite App in C. cbn [connected] in C.
    assert (match p_call x with PPort (UConfig _ _) | PBuf _ | PRun _ _ => True | _ => False end ->
            connected h1 false = true ->
            exists h0 o b h3, h1 ++ [x] = h0 ++ mkPent (PPort (UOpen o)) b ONone [] :: h3 /\
              os_open o <> None /\ os_tty o = true /\
              (forall x, In x h3 -> match p_call x with PPort (UConfig _ _) | PBuf _ | PRun _ _ => True | _ => False end)) as Step.
    { intros Hx Cx. destruct (IH _ _ _ _ Cx H3) as (h0 & o & b & h3 & -> & A & B & D).
      exists h0, o, b, (h3 ++ [x]). splits; [now rewrite <- app_assoc|exact A|exact B|].
      intros z I. apply in_app_iff in I as [I|[<-|[]]]; [apply D, I|exact Hx]. }
    inversion H4 as [|? ? c b ? ? ? ? K E P|? ? c out y ? ? ? O E P|? ? rk wk ? ev ? ? ? E P]; subst; cbn [p_call] in *;
      try (apply Step; [exact I|exact C]).
    destruct c as [o| |rate bits]; [|discriminate|apply Step; [exact I|exact C]].
    exists h1, o, b, []. destruct (os_open o) eqn:Eo; [|discriminate].
    splits; [reflexivity|discriminate|exact C|intros ? []].
Qed.

(** After close() and before the next open(), nothing passes, whatever the program writes. *)
Theorem C77_unix_closed : forall apple s h u s' h2 u2 s2, port_hist apple unix_new s h u s' ->
  port_hist apple (unix_close u) s' h2 u2 s2 ->
  (forall e o, In e h2 -> p_call e <> PPort (UOpen o)) -> wire (p_log h2) = [] /\ sent (p_log h2) = [].
Proof.
  intros apple s h u s' h2 u2 s2 H H2 N. destruct (hist_fd _ _ _ _ _ _ H fd_ok_new) as [F _].
  destruct (close_ok _ F) as [F1 V1]. clear H F.
  assert (wire (p_log h2) = []) as W.
  { revert F1 V1 H2 N. generalize (unix_close u). intros v F V H.
    induction H as [v s0|v s0 c b u1 h0 u2 s2 K E H IH|v s0 c out y h0 u2 s2 O E H IH|v s0 rk wk s1 ev h0 u2 s2 E H IH];
      intros N.
    - reflexivity.
    - unfold p_log in *. cbn [map concat p_ev app]. destruct (call_fd _ _ _ _ _ K E F) as [F2 V2].
      apply IH; [exact F2| |intros e o I; apply N; now right].
      destruct c as [o| |rate bits]; [|exact V2|now rewrite V2].
      exfalso. exact (N _ o (or_introl eq_refl) eq_refl).
    - unfold p_log in *. cbn [map concat p_ev]. rewrite wire_app.
      destruct (exec_still _ _ _ _ E eq_refl) as [_ L]. rewrite L. apply IH; [exact F|exact V|]. intros e o I; apply N; now right.
    - unfold p_log in *. cbn [map concat p_ev]. rewrite (run_closed _ _ _ _ _ _ E V). apply IH; [exact F|exact V|].
      intros e o I; apply N; now right. }
  split; [exact W|]. revert W. generalize (p_log h2). induction l as [|e l IH]; [reflexivity|].
  destruct e; cbn [wire filter is_wire sent]; try exact IH; discriminate.
Qed.

(** The streams, from the first open() on, through any number of openings and closings. *)
Theorem C77_unix_streams : forall apple rbuf wbuf h u s, 1 <= length rbuf -> 1 <= length wbuf ->
  port_hist apple unix_new (serial_new rbuf wbuf) h u s -> clean (p_log h) ->
  (exists rest, length rest <= length wbuf /\ put (p_log h) = sent (p_log h) ++ rest /\
     (unix_processed s = true <-> rest = [])) /\
  (~ In EvFlushed (p_log h) -> exists rest, length rest <= length rbuf /\ stored (p_log h) = taken (p_log h) ++ rest).
Proof.
  intros apple rbuf wbuf h u s L1 L2 H Cl.
  destruct (hist_is _ _ _ _ _ _ H [] [] (serial_new_is rbuf wbuf)) as (q & t & I & K & R & T);
    [rewrite caps_new; exact L1|rewrite caps_new; exact L2|exact Cl|].
  rewrite caps_new in K. unfold caps in K. injection K as K1 K2.
  destruct (lring_is_avail _ _ (proj1 I)) as [Ha1 Hl1]. destruct (lring_is_avail _ _ (proj2 I)) as [Ha2 Hl2]. split.
  - exists t. splits; [lia|exact (tx_replay_streams _ _ _ T)|]. unfold unix_processed.
    rewrite (lring_is_empty _ _ (proj2 I)). destruct t; split; intros; congruence.
  - intros F. exists q. split; [lia|]. exact (rx_replay_streams _ _ _ F R).
Qed.

(** No call has undefined behaviour, in any state, also while the port is closed. *)
Theorem C77_unix_total : forall apple rbuf wbuf h u s, 1 <= length rbuf -> 1 <= length wbuf ->
  port_hist apple unix_new (serial_new rbuf wbuf) h u s -> clean (p_log h) ->
  (forall c, call_ok c -> exists out y, s_exec c (mkSys s [] []) = Ok (out, y)) /\
  (forall rk wk, exists s' ev, unix_run rk wk u s = Ok (s', ev)).
Proof.
  intros apple rbuf wbuf h u s L1 L2 H Cl.
  destruct (hist_is _ _ _ _ _ _ H [] [] (serial_new_is rbuf wbuf)) as (q & t & I & K & R & T);
    [rewrite caps_new; exact L1|rewrite caps_new; exact L2|exact Cl|].
  rewrite caps_new in K. split.
  - intros c O. destruct (s_exec_is c (mkSys s [] []) q t I) as (out & y & _ & _ & E & _); cbn [ser]; try rewrite K; auto.
    exists out, y. exact E.
  - intros rk wk. destruct (transfer_is s (Transfer (unix_raw_read rk u) (unix_raw_write wk u)) q t I) as (s3 & ev3 & a & k & E3 & _).
    exists s3, ev3. exact E3.
Qed.

(** While connected, a byte the terminal delivers is stored unless the buffer is full,
    and as many runs as bytes are buffered send all of them. *)
Theorem C77_unix_run : forall apple rbuf wbuf h u s, 1 <= length rbuf -> 1 <= length wbuf ->
  port_hist apple unix_new (serial_new rbuf wbuf) h u s -> clean (p_log h) -> connected h false = true ->
  (forall c wk s' ev q, unix_run (Some c) wk u s = Ok (s', ev) -> rx_replay (p_log h) [] = Some q ->
     In (if length q <? length rbuf then EvStored c else EvDropped c) ev) /\
  (forall rks, length wbuf <= length rks -> exists h2 s2,
     map p_call h2 = map (fun rk => PRun rk true) rks /\ port_hist apple u s h2 u s2 /\
     put (p_log h) = sent (p_log h ++ p_log h2)).
Proof.
  intros apple rbuf wbuf h u s L1 L2 H Cl Up.
  destruct (hist_fd _ _ _ _ _ _ H fd_ok_new) as [F V]. change (unix_valid unix_new) with false in V. rewrite Up in V.
  destruct (hist_is _ _ _ _ _ _ H [] [] (serial_new_is rbuf wbuf)) as (q & t & I & K & R & T);
    [rewrite caps_new; exact L1|rewrite caps_new; exact L2|exact Cl|].
  rewrite caps_new in K. unfold caps in K. injection K as K1 K2.
  destruct (lring_is_avail _ _ (proj1 I)) as [Ha1 Hl1]. destruct (lring_is_avail _ _ (proj2 I)) as [Ha2 Hl2]. split.
  - intros c wk s' ev q2 E R2. rewrite R in R2. injection R2 as <-.
    unfold unix_run, unix_raw_read in E. rewrite V in E. unfold transfer in E. cbn [bind] in E.
    unfold ring_is_full in E. rewrite Ha1, K1 in E.
    destruct (Nat.eqb_spec (length q) (length rbuf)) as [Eq|Ne]; cbn [negb bind] in E.
    + rewrite Eq, Nat.ltb_irrefl. destruct (0 <? _); [|injection E as _ <-; now left].
      destruct (ring_read _); [cbn [bind] in E|discriminate]. destruct (unix_raw_write _ _); [|injection E as _ <-; now left].
      destruct (lr_pull _) as [[c' tx]|]; [cbn [bind] in E|discriminate]. injection E as _ <-. now left.
    + assert (length q <? length rbuf = true) as -> by (apply Nat.ltb_lt; lia).
      destruct (lr_push _ c) as [rx|]; [cbn [bind] in E|discriminate].
      destruct (0 <? _); [|injection E as _ <-; now left].
      destruct (ring_read _); [cbn [bind] in E|discriminate]. destruct (unix_raw_write _ _); [|injection E as _ <-; now left].
      destruct (lr_pull _) as [[c' tx]|]; [cbn [bind] in E|discriminate]. injection E as _ <-. now left.
  - intros rks Ln. pose proof (tx_replay_streams _ _ _ T) as Pt. cbn [app] in Pt. rewrite Pt.
    assert (length t <= length rks) as Lt by lia. clear - V I Lt.
    assert (exists h2 s2, map p_call h2 = map (fun rk => PRun rk true) rks /\ port_hist apple u s h2 u s2 /\ sent (p_log h2) = t) as (h2 & s2 & A & B & C).
    { revert s q t I Lt. induction rks as [|rk rks IH]; intros s q t I Lt; cbn [length] in Lt.
      - exists [], s. destruct t; [|cbn in Lt; lia]. splits; [reflexivity|constructor|reflexivity].
      - destruct (transfer_is s (Transfer (unix_raw_read rk u) (unix_raw_write true u)) q t I)
          as (s1 & ev & a & k & E & I1 & _ & _ & _ & S1 & _ & _).
        assert (sent ev = firstn 1 t /\ skipn k t = skipn 1 t) as [Q1 Q2].
        { destruct t as [|x t].
          - rewrite S1. now destruct k.
          - assert (exists c, sent ev = [c]) as (c & Sc).
            { destruct (lring_is_avail _ _ (proj2 I)) as [Ha _].
              unfold unix_raw_write in E. rewrite V in E. cbn [andb] in E. unfold transfer in E.
              destruct (match unix_raw_read rk u with Some _ => _ | None => _ end) as [[rx ev1]|] eqn:E1; [cbn [bind] in E|discriminate].
              assert (sent ev1 = []) as N1.
              { destruct (unix_raw_read rk u) as [d|]; [|injection E1 as _ <-; reflexivity].
                destruct (negb _); [|injection E1 as _ <-; reflexivity].
                destruct (lr_push _ d); [cbn [bind] in E1|discriminate]. injection E1 as _ <-. reflexivity. }
              rewrite Ha in E. cbn [length Nat.ltb Nat.leb] in E.
              destruct (ring_read _) as [c|]; [cbn [bind] in E|discriminate].
              destruct (lr_pull _) as [[c' tx]|]; [cbn [bind] in E|discriminate]. injection E as _ <-.
              exists c. now rewrite sent_app, N1. }
            rewrite S1 in Sc. pose proof (firstn_skipn k (x :: t)) as FS. rewrite Sc in FS. cbn [app] in FS.
            injection FS as <- FS. rewrite S1, Sc. cbn [firstn skipn]. auto. }
        rewrite Q2 in I1. destruct (IH s1 _ _ I1) as (h2 & s2 & A & B & C); [rewrite skipn_length; lia|].
        exists (mkPent (PRun rk true) true ONone ev :: h2), s2. splits.
        + cbn [map p_call]. now rewrite A.
        + eapply ph_run; [exact E|exact B].
        + unfold p_log in *. cbn [map concat p_ev]. rewrite sent_app, C, Q1. apply firstn_skipn. }
    exists h2, s2. splits; [exact A|exact B|]. now rewrite sent_app, C.
Qed.

(** A kernel for the cases: descriptor 3, a terminal, everything succeeds. *)
Definition os_good : oscalls := mkOs (Some 3%Z) true true true true.
Definition os_locked : oscalls := mkOs (Some 3%Z) true true true false.

(** The program writes three bytes, opens the port, two are sent while one arrives, the
    port is closed, and nothing more happens. *)
Definition life : list pcall :=
  [PBuf (SWriteStr ["a"; "b"; "c"; "000"]%char); PRun (Some "z"%char) true; PPort (UOpen os_good);
   PRun (Some "x"%char) true; PRun None true; PPort UClose; PRun (Some "y"%char) true; PBuf (SReadMany 5)].

Ltac kernel_free := let o := fresh in let fd := fresh in let E := fresh in let F := fresh in
  intros o fd E F; injection E as <-; injection F as <-; split; [lia|vm_compute; tauto].
Ltac pbuf b := eapply (ph_buf _ _ _ b); [cbn [call_ok]; cbn; tauto|vm_compute; reflexivity|cbn [ser]].
Ltac prun r w := eapply (ph_run _ _ _ r w); [vm_compute; reflexivity|].
Ltac popen o := eapply (ph_port _ _ _ (UOpen o)); [kernel_free|vm_compute; reflexivity|].
Ltac pclose := eapply (ph_port _ _ _ UClose); [intros ? ? E ?; discriminate E|vm_compute; reflexivity|].

Definition buf4 : list ascii := repeat "000"%char 4.

Example C77_unix_case : exists h u s,
  port_hist false unix_new (serial_new buf4 buf4) h u s /\ map p_call h = life /\
  map p_ev h = [[EvPut "a"; EvPut "b"; EvPut "c"]; []; []; [EvStored "x"; EvSent "a"]; [EvSent "b"]; []; []; [EvTaken "x"]]%char /\
  clean (p_log h) /\ connected (firstn 4 h) false = true /\ connected h false = false.
Proof.
  do 3 eexists. split.
  - pbuf (SWriteStr ["a"; "b"; "c"; "000"]%char). prun (Some "z"%char) true. popen os_good. prun (Some "x"%char) true.
    prun (@None ascii) true. pclose. prun (Some "y"%char) true. pbuf (SReadMany 5). constructor.
  - vm_compute. repeat split.
Qed.

(** Not only while isOpen(): when setting the terminal's attributes fails, open() reports
    failure and isOpen() is false, but the descriptor is kept, and bytes are sent. *)
Theorem C77_unix_isopen_refuted : forall apple s fd o, os_open o = Some fd -> (0 <= fd)%Z ->
  os_tty o = true -> os_get o && os_speed o && os_set o = false ->
  exists u, port_hist apple unix_new s [mkPent (PPort (UOpen o)) false ONone []] u s /\ unix_is_open u = false /\
    forall c s' ev rbuf wbuf out, 1 <= length rbuf -> 1 <= length wbuf -> s = serial_new rbuf wbuf ->
      unix_run (Some c) true u s = Ok (s', ev) ->
      ev = [EvStored c] /\
      (forall y, s_exec (SWriteOne c) (mkSys s [] []) = Ok (out, y) ->
         exists s2, unix_run None true u (ser y) = Ok (s2, [EvSent c])).
Proof.
  intros apple s fd o Eo Hfd Et Ef.
  assert (unix_open o unix_new = (false, mkUnix false fd B115200 CS8 [fd] None)) as E.
  { unfold unix_open. rewrite Eo, Et. cbn [negb]. destruct (os_get o), (os_speed o), (os_set o); try discriminate; reflexivity. }
  exists (mkUnix false fd B115200 CS8 [fd] None). splits.
  - eapply ph_port; [|exact E|constructor]. intros o2 fd2 Q Eo2. injection Q as <-. rewrite Eo in Eo2. injection Eo2 as <-.
    split; [exact Hfd|intros []].
  - reflexivity.
  - intros c s' ev rbuf wbuf out L1 L2 -> R.
    assert (unix_valid (mkUnix false fd B115200 CS8 [fd] None) = true) as V by (apply valid_in; now left).
    unfold unix_run, unix_raw_read, unix_raw_write in *. rewrite V in *. cbn [andb] in *. split.
    + destruct (transfer_is (serial_new rbuf wbuf) (Transfer (Some c) true) [] [] (serial_new_is _ _))
        as (s3 & ev3 & a & k & E3 & I3 & _ & F3 & S3 & T3 & _).
      unfold transfer in R. destruct rbuf as [|r0 rbuf]; [cbn in L1; lia|].
      destruct (negb _) eqn:N; [|discriminate N].
      destruct (lr_push _ c); [cbn [bind] in R|discriminate]. cbn in R. now injection R as _ <-.
    + intros y W. cbn [s_exec] in W.
      destruct (s_copy_step c (mkSys (serial_new rbuf wbuf) [] []) [] [] (serial_new_is _ _)) as (y2 & ev2 & a & k & E2 & St & _ & _ & Q).
      { cbn [ser]. rewrite caps_new. exact L2. }
      unfold s_write in W. rewrite E2 in W. cbn [bind] in W. injection W as _ <-.
      destruct (Q eq_refl) as (-> & -> & _). destruct St as (I2 & _). cbn [app skipn] in I2.
      destruct (lring_is_avail _ _ (proj2 I2)) as [Ha _].
      unfold transfer. cbn [bind]. rewrite Ha. cbn [length Nat.ltb Nat.leb].
      assert (ring_read (lr (stx (ser y2))) = Ok c) as ->.
      { destruct I2 as [_ (Hok & Hc & _)]. exact (ring_read_spec _ c [] (proj1 Hok) Hc). }
      cbn [bind]. destruct (lr_pull_is _ _ _ (proj2 I2)) as (tx & -> & _). cbn [bind app]. eauto.
Qed.

Example C77_unix_isopen_case : exists u, port_hist false unix_new (serial_new buf4 buf4) [mkPent (PPort (UOpen os_locked)) false ONone []] u (serial_new buf4 buf4) /\
  unix_is_open u = false /\ exists s', unix_run (Some "x"%char) true u (serial_new buf4 buf4) = Ok (s', [EvStored "x"%char]).
Proof.
  eexists. split; [eapply ph_port; [kernel_free|vm_compute; reflexivity|constructor]|]. split; [reflexivity|].
  eexists. vm_compute. reflexivity.
Qed.

Print Assumptions C77_unix_wire.
Print Assumptions C77_unix_closed.
Print Assumptions C77_unix_streams.
Print Assumptions C77_unix_total.
Print Assumptions C77_unix_run.
Print Assumptions C77_unix_isopen_refuted.
