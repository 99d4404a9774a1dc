(** Rules for the functions every driver shares. *)
From Coq Require Import String Ascii ZArith List Bool Arith Lia ZifyBool ZifyNat.
From Verif Require Import Base QueueSpec LineSpec SerialSpec Ring RingProofs LineRing LineRingProofs Serial SerialProofs
  SerStep TaskMacros CStr CStrProofs Dev SimDev.
Import ListNotations.
Local Open Scope nat_scope.
Ltac Zify.zify_post_hook ::= Z.div_mod_to_equations.

(** [tk] was read from and [pt] written to the port, and nothing else but
    interrupts happened. *)
Definition ioeff (y y' : sys) (tk pt : bytes) : Prop :=
  exists ev, sstep y y' ev /\ clean ev /\ ~ In EvFlushed ev /\ taken ev = tk /\ put ev = pt /\
    rxav y <= rxav y' + length tk /\ txav y' <= txav y + length pt.

Lemma ioeff_refl : forall y, serial_wf (ser y) -> ioeff y y [] [].
Proof.
  intros y H. exists []. splits; auto; cbn; try lia; [apply sstep_refl; assumption|reflexivity].
Qed.
Lemma ioeff_trans : forall y1 y2 y3 t1 p1 t2 p2, ioeff y1 y2 t1 p1 -> ioeff y2 y3 t2 p2 ->
  ioeff y1 y3 (t1 ++ t2) (p1 ++ p2).
Proof.
  intros y1 y2 y3 t1 p1 t2 p2 (e1 & A1 & A2 & A3 & A4 & A5 & A6 & A7) (e2 & B1 & B2 & B3 & B4 & B5 & B6 & B7).
  exists (e1 ++ e2). rewrite taken_app, put_app, !app_length, in_app_iff, clean_app. splits; try tauto; try lia; try congruence.
  eapply sstep_trans; eassumption.
Qed.
Lemma ioeff_wf : forall y y' t p, ioeff y y' t p -> serial_wf (ser y').
Proof. intros y y' t p (ev & H & _). apply H. Qed.
Lemma ioeff_caps : forall y y' t p, ioeff y y' t p -> rxsz y' = rxsz y /\ txsz y' = txsz y.
Proof. intros y y' t p (ev & H & _). eapply sstep_caps; eassumption. Qed.
Lemma ioeff_av : forall y y' t p, ioeff y y' t p -> rxav y <= rxav y' + length t /\ txav y' <= txav y + length p.
Proof. intros y y' t p (ev & _ & _ & _ & _ & _ & H). exact H. Qed.
Lemma quiet_ioeff : forall y y', quiet y y' -> ioeff y y' [] [].
Proof.
  intros y y' H. destruct (quiet_sstep _ _ H) as (ev0 & S0 & _). destruct H as (ev & S1 & He & Hr & Ht).
  exists ev. destruct (isr_ev_quiet ev He) as (A & B & C). splits; auto; cbn; try lia.
  intro Hin. rewrite Forall_forall in He. exact (He _ Hin).
Qed.
Lemma took_ioeff : forall y y' c, took y y' c -> ioeff y y' [c] [].
Proof.
  intros y y' c (ev & A1 & A2 & A3 & A4 & A5 & A6 & A7 & A8). exists ev. splits; auto; cbn; lia.
Qed.

(** [s] was written, at least as far as there was room. *)
Definition wroteb (y y' : sys) (s : bytes) : Prop :=
  exists p, ioeff y y' [] p /\ length p <= length s /\ (txav y + length s <= txsz y -> p = s).

Lemma wrote_wroteb : forall y y' s, wrote y y' s -> wroteb y y' s.
Proof.
  intros y y' s (ev & A1 & A2 & A3 & A4 & A5 & A6 & A7 & A8). exists (put ev). splits; auto.
  exists ev. splits; auto; cbn; lia.
Qed.
Lemma wroteb_wf : forall y y' s, wroteb y y' s -> serial_wf (ser y').
Proof. intros y y' s (p & H & _). eapply ioeff_wf; eassumption. Qed.
Lemma wroteb_trans : forall y1 y2 y3 a b, wroteb y1 y2 a -> wroteb y2 y3 b -> wroteb y1 y3 (a ++ b).
Proof.
  intros y1 y2 y3 a b (p & A1 & A2 & A3) (q & B1 & B2 & B3). exists (p ++ q).
  destruct (ioeff_caps _ _ _ _ A1) as [_ Hsz]. destruct (ioeff_av _ _ _ _ A1) as [_ Hav].
  split; [exact (ioeff_trans _ _ _ _ _ _ _ A1 B1)|]. rewrite !app_length. split; [lia|].
  intro H. rewrite A3 in * by lia. f_equal. apply B3. lia.
Qed.
Lemma ioeff_wroteb : forall y1 y2 y3 b, ioeff y1 y2 [] [] -> wroteb y2 y3 b -> wroteb y1 y3 b.
Proof.
  intros y1 y2 y3 b A (q & B1 & B2 & B3). exists q.
  destruct (ioeff_caps _ _ _ _ A) as [_ Hsz]. destruct (ioeff_av _ _ _ _ A) as [_ Hav]. cbn [length] in Hav.
  split; [exact (ioeff_trans _ _ _ _ _ _ _ A B1)|]. split; [lia|]. intro H. apply B3. lia.
Qed.
Lemma wroteb_ioeff : forall y1 y2 y3 a, wroteb y1 y2 a -> ioeff y2 y3 [] [] -> wroteb y1 y3 a.
Proof.
  intros y1 y2 y3 a (p & A1 & A2 & A3) B. exists p. splits; auto.
  pose proof (ioeff_trans _ _ _ _ _ _ _ A1 B) as H. rewrite (app_nil_r p) in H. exact H.
Qed.
Lemma wroteb_nil : forall y, serial_wf (ser y) -> wroteb y y [].
Proof. intros y H. exists []. splits; auto. apply ioeff_refl; assumption. Qed.

(** The characters a C function sees of a string. *)
Definition cbody (s : bytes) : bytes := str_body (s ++ [NUL]).
Lemma cbody_free : forall s, ~ In NUL s -> cbody s = s.
Proof. intros s H. unfold cbody. apply str_body_free; assumption. Qed.
Lemma cbody_idem : forall s, ~ In NUL (cbody s).
Proof. intro s. apply str_body_no_nul. Qed.
Lemma clen_cbody : forall s, clen s = length (cbody s).
Proof. reflexivity. Qed.

(** Take a device apart. *)
Ltac ddev d := destruct d as [io0 op0 rb0 wb0 ty0 ho0 po0 fl0 cs0 wt0 lb0 lf0 ss0 rs0 tw0 tc0 td0 si0 tk0 ex0].

Section Rules.
Context {SS RS X : Type}.
Notation dev := (dev SS RS X).
Implicit Types d : dev.

Definition swf d : Prop := serial_wf (ser (io d)).

Lemma wp_avail : forall (U : Prop) d (Q : _ -> Prop), swf d ->
  (forall y, ioeff (io d) y [] [] -> Q (rxav y, set_io y d)) -> wp U (d_avail d) Q.
Proof.
  intros U d Q H HQ. unfold d_avail. destruct (s_avail_q (io d) H) as (y & E & Hq). rewrite E. cbn [bind wp].
  apply HQ, quiet_ioeff, Hq.
Qed.
Lemma wp_space : forall (U : Prop) d (Q : _ -> Prop), swf d ->
  (forall y, ioeff (io d) y [] [] -> Q (txsz y - txav y, set_io y d)) -> wp U (d_space d) Q.
Proof.
  intros U d Q H HQ. unfold d_space. destruct (s_space_q (io d) H) as (y & E & Hq). rewrite E. cbn [bind wp].
  apply HQ, quiet_ioeff, Hq.
Qed.
Lemma wp_getc : forall (U : Prop) d (Q : _ -> Prop), swf d -> 0 < rxav (io d) ->
  (forall c y, ioeff (io d) y [c] [] -> readline_fuel y < readline_fuel (io d) -> Q (c, set_io y d)) ->
  wp U (d_getc d) Q.
Proof.
  intros U d Q H H0 HQ. unfold d_getc. destruct (s_read_q (io d) H H0) as (c & y & E & Ht). rewrite E. cbn [bind wp].
  apply HQ; [apply took_ioeff, Ht|]. destruct Ht as (ev & A). tauto.
Qed.
Lemma wp_w_str : forall (U : Prop) s d (Q : _ -> Prop), swf d ->
  (forall y, wroteb (io d) y (cbody s) -> Q (set_io y d)) -> wp U (w_str s d) Q.
Proof.
  intros U s d Q H HQ. unfold w_str.
  destruct (s_write_str_q (s ++ [NUL]) (io d) H) as (k & y & E & Hw & _).
  { apply in_app_iff. right. left. reflexivity. }
  rewrite E. cbn [bind wp]. apply HQ, wrote_wroteb. exact Hw.
Qed.
Lemma wp_w_arr : forall (U : Prop) a d (Q : _ -> Prop), swf d -> In NUL a ->
  (forall y, wroteb (io d) y (str_body a) -> Q (set_io y d)) -> wp U (w_arr a d) Q.
Proof.
  intros U a d Q H Ha HQ. unfold w_arr. destruct (s_write_str_q a (io d) H Ha) as (k & y & E & Hw & _).
  rewrite E. cbn [bind wp]. apply HQ, wrote_wroteb. exact Hw.
Qed.
Lemma s_write_many_wroteb : forall s n y, serial_wf (ser y) -> n <= length s ->
  exists k y', s_write_many s n y = Ok (k, y') /\ wroteb y y' (firstn n s).
Proof.
  intros s n y H Hn. destruct (s_write_many_q s n y H Hn) as (k & y' & E & Hk & Hw & Hr & _).
  exists k, y'. split; [exact E|]. destruct (wrote_wroteb _ _ _ Hw) as (p & A & B & C).
  exists p. rewrite firstn_length in *. splits; auto; try lia. intro Hroom.
  rewrite Nat.min_l in Hroom by lia. assert (k = n) by (apply Hr; lia). subst k. apply C. lia.
Qed.
Lemma wp_w_many : forall (U : Prop) s d (Q : _ -> Prop), swf d ->
  (forall y, wroteb (io d) y s -> Q (set_io y d)) -> wp U (w_many s d) Q.
Proof.
  intros U s d Q H HQ. unfold w_many.
  destruct (s_write_many_wroteb s (length s) (io d) H (le_n _)) as (k & y & E & Hw).
  rewrite E. cbn [bind wp]. apply HQ. rewrite firstn_all in Hw. exact Hw.
Qed.
Lemma wp_w_ptr_len : forall (U : Prop) s d (Q : _ -> Prop), swf d ->
  (forall y, wroteb (io d) y (cbody s) -> Q (set_io y d)) -> wp U (w_ptr_len (PStr s) d) Q.
Proof.
  intros U s d Q H HQ. unfold w_ptr_len.
  assert (Hle : clen s <= length (s ++ [NUL])) by apply str_body_le.
  destruct (s_write_many_wroteb (s ++ [NUL]) (clen s) (io d) H Hle) as (k & y & E & Hw). rewrite E. cbn [bind wp].
  apply HQ. unfold clen in Hw. rewrite str_body_firstn in Hw; [exact Hw|]. apply in_app_iff. right. left. reflexivity.
Qed.
Lemma wp_flush_rx : forall (U : Prop) d (Q : _ -> Prop), swf d ->
  (forall y ev, sstep (io d) y ev -> clean ev -> taken ev = [] -> put ev = [] -> rxav y = 0 -> txav y <= txav (io d) ->
     (forall q, rx_replay ev q = Some []) -> lring_is (srx (ser y)) [] -> Q (set_io y d)) ->
  wp U (d_flush_rx d) Q.
Proof.
  intros U d Q H HQ. unfold d_flush_rx. destruct (s_flush_q (io d) H) as (y & ev & E & A1 & A2 & A3 & A4 & A5 & A6 & A7 & A8).
  rewrite E. cbn [bind wp]. eapply HQ; eauto.
Qed.

(** [lstarts] never leaves the line buffer. *)
Lemma lmatch_eq : forall n lit d, n <= length lit -> n <= length (lbuf d) -> ~ In NUL lit ->
  lmatch n lit d = Ok (prefixb (firstn n lit) (lbuf d)).
Proof. intros. apply strncmp_ok; assumption. Qed.
Lemma lstarts_eq : forall lit d, length lit <= length (lbuf d) -> ~ In NUL lit ->
  lstarts lit d = Ok (prefixb lit (lbuf d)).
Proof. intros. unfold lstarts. rewrite lmatch_eq, firstn_all; auto. Qed.

Lemma wp_send_command : forall (U : Prop) cmd d (Q : _ -> Prop), swf d ->
  (forall y, wroteb (io d) y (cbody cmd ++ lineEndStr) -> Q (set_io y d)) -> wp U (at_send_command cmd d) Q.
Proof.
  intros U cmd d Q H HQ. unfold at_send_command. apply wp_bind. apply wp_w_str; [assumption|]. intros y1 W1.
  apply wp_w_str; [exact (wroteb_wf _ _ _ W1)|]. intros y2 W2. cbn [io set_io] in W2.
  replace (set_io y2 (set_io y1 d)) with (set_io y2 d) by (ddev d; reflexivity).
  apply HQ. change lineEndStr with (cbody lineEndStr). eapply wroteb_trans; eassumption.
Qed.

(** *** Reading *)

Lemma set_io_io : forall a b d, set_io a (set_io b d) = set_io a d.
Proof. intros a b d. ddev d; reflexivity. Qed.

Lemma wp_receive_loop : forall n (U : Prop) d (Q : _ -> Prop), swf d -> n <= rxav (io d) -> ring_wf (rbuf d) -> 0 < rsize (rbuf d) ->
  (forall y tk r, ioeff (io d) y tk [] -> length tk = n -> ring_wf r -> rsize r = rsize (rbuf d) ->
     (ring_ok (rbuf d) -> avail (rbuf d) + n <= rsize (rbuf d) ->
        ring_ok r /\ contents r = contents (rbuf d) ++ tk) ->
     Q (set_toRead (toRead d - Z.of_nat n)%Z (set_rbuf r (set_io y d)))) ->
  wp U (at_receive_loop n d) Q.
Proof.
  induction n as [|n IH]; intros U d Q H Hn Hr Hs HQ; cbn [at_receive_loop].
  - specialize (HQ (io d) [] (rbuf d)). cbn [wp]. replace d with (set_toRead (toRead d - Z.of_nat 0)%Z (set_rbuf (rbuf d) (set_io (io d) d))) at 1.
    2:{ ddev d; cbn [set_toRead set_rbuf set_io toRead rbuf io Z.of_nat]; rewrite Z.sub_0_r; reflexivity. }
    apply HQ; auto. apply ioeff_refl; assumption. intros. rewrite app_nil_r. auto.
  - apply wp_bind. apply wp_getc; [assumption|lia|]. intros c y E Hf.
    apply wp_bind. cbn [rbuf set_io]. rewrite (ring_push_spec (rbuf d) c Hr Hs). cbn [wp].
    set (r1 := mkRing _ _ _ _ _).
    assert (Ep : ring_push (rbuf d) c = Ok r1) by (apply ring_push_spec; assumption).
    pose proof (ring_push_wf _ _ _ Hr Ep) as Hw1.
    destruct (ioeff_av _ _ _ _ E) as [Ha _]. cbn [length] in Ha.
    apply IH; cbn [rbuf set_toRead set_rbuf set_io io toRead]; unfold swf; cbn [io set_toRead set_rbuf set_io]; auto.
    + exact (ioeff_wf _ _ _ _ E). + lia.
    + intros y' tk r E' Ht Hw Hsz Hc.
      replace (set_toRead _ (set_rbuf r (set_io y' _))) with
        (set_toRead (toRead d - Z.of_nat (S n))%Z (set_rbuf r (set_io y' d))).
      2:{ ddev d; cbn [set_toRead set_rbuf set_io toRead]; replace (td0 - 1 - Z.of_nat n)%Z with (td0 - Z.of_nat (S n))%Z by lia; reflexivity. }
      apply (HQ y' (c :: tk) r); auto.
      * exact (ioeff_trans _ _ _ [c] [] tk [] E E'). * cbn; lia.
      * intros Hok Hroom. destruct (ring_push_room (rbuf d) c Hok ltac:(lia)) as (r' & Er & Hr' & Hc' & Hs').
        rewrite Ep in Er. injection Er as <-.
        assert (Hav : avail r1 = S (avail (rbuf d))).
        { unfold r1; cbn [avail]. destruct (Nat.ltb_spec (avail (rbuf d)) (rsize (rbuf d))); lia. }
        destruct (Hc Hr') as [Hc1 Hc2]; [rewrite Hav, Hs'; lia|]. split; [assumption|].
        rewrite Hc2, Hc', <- app_assoc. reflexivity.
Qed.

(** receive() *)
Lemma wp_receive : forall (U : Prop) d (Q : _ -> Prop), swf d -> ring_wf (rbuf d) -> 0 < rsize (rbuf d) -> (0 <= toRead d)%Z ->
  (forall y, ioeff (io d) y [] [] -> (Z.of_nat (rxav y) < toRead d)%Z -> Q (false, set_io y d)) ->
  (forall y tk r, ioeff (io d) y tk [] -> Z.of_nat (length tk) = toRead d -> ring_wf r -> rsize r = rsize (rbuf d) ->
     (ring_ok (rbuf d) -> avail (rbuf d) + length tk <= rsize (rbuf d) ->
        ring_ok r /\ contents r = contents (rbuf d) ++ tk) ->
     Q (true, on_line true (set_toRead 0%Z (set_rbuf r (set_io y d))))) ->
  wp U (at_receive d) Q.
Proof.
  intros U d Q H Hr Hs Ht HQ1 HQ2. unfold at_receive. apply wp_bind. apply wp_avail; [assumption|]. intros y E.
  cbn [toRead set_io]. destruct (Z.leb_spec (toRead d) (Z.of_nat (rxav y))).
  - apply wp_bind. apply wp_receive_loop; cbn [rbuf set_io io toRead]; unfold swf; cbn [io set_io]; auto.
    + exact (ioeff_wf _ _ _ _ E). + lia.
    + intros y' tk r E' Hl Hw Hsz Hc. cbn [wp]. rewrite set_io_io.
      replace (toRead d - Z.of_nat (Z.to_nat (toRead d)))%Z with 0%Z by lia.
      apply HQ2 with (tk := tk); auto; try lia.
      * exact (ioeff_trans _ _ _ [] [] tk [] E E'). * rewrite Hl in *. auto.
  - cbn [wp]. apply HQ1; auto.
Qed.

(** flushReadBuffer() *)
Lemma wp_flush_loop : forall fuel (U : Prop) d (Q : _ -> Prop), swf d -> readline_fuel (io d) <= fuel ->
  (forall y tk, ioeff (io d) y tk [] -> ((toRead d - Z.of_nat (length tk))%Z = 0%Z \/ rxav y = 0) ->
     ((0 <= toRead d)%Z -> (Z.of_nat (length tk) <= toRead d)%Z) ->
     Q (set_toRead (toRead d - Z.of_nat (length tk))%Z (set_io y d))) ->
  wp U (at_flush_loop fuel d) Q.
Proof.
  induction fuel as [|fuel IH]; intros U d Q H Hf HQ; cbn [at_flush_loop].
  - destruct (toRead d =? 0)%Z eqn:E0.
    + apply Z.eqb_eq in E0. cbn [wp]. replace d with (set_toRead (toRead d - Z.of_nat (@length ascii []))%Z (set_io (io d) d)) at 1
        by (ddev d; cbn [set_toRead set_io toRead io length Z.of_nat]; rewrite Z.sub_0_r; reflexivity).
      apply HQ; cbn; try lia. apply ioeff_refl; assumption.
    + apply wp_bind. unfold d_avail. destruct (s_avail_q (io d) H) as (y & E & Hq). rewrite E. cbn [bind wp].
      assert (rxav y = 0) as ->.
      { destruct Hq as (ev & S1 & _). destruct S1 as (_ & _ & _ & S1 & _). unfold readline_fuel, rxav in *. lia. }
      cbn [Nat.eqb wp]. replace (set_io y d) with (set_toRead (toRead d - Z.of_nat (@length ascii []))%Z (set_io y d))
        by (ddev d; cbn [set_toRead set_io toRead io length Z.of_nat]; rewrite Z.sub_0_r; reflexivity).
      apply HQ; cbn; try lia.
      * apply quiet_ioeff; assumption.
      * right. destruct Hq as (ev & S1 & _). destruct S1 as (_ & _ & _ & S1 & _). unfold readline_fuel, rxav in *. lia.
  - destruct (toRead d =? 0)%Z eqn:E0.
    + apply Z.eqb_eq in E0. cbn [wp]. replace d with (set_toRead (toRead d - Z.of_nat (@length ascii []))%Z (set_io (io d) d)) at 1
        by (ddev d; cbn [set_toRead set_io toRead io length Z.of_nat]; rewrite Z.sub_0_r; reflexivity).
      apply HQ; cbn; try lia. apply ioeff_refl; assumption.
    + apply Z.eqb_neq in E0. apply wp_bind. unfold d_avail. destruct (s_avail_q (io d) H) as (y & E & Hq). rewrite E. cbn [bind wp].
      assert (Hfy : readline_fuel y <= readline_fuel (io d)) by (destruct Hq as (ev & S1 & _); apply S1).
      apply quiet_ioeff in Hq.
      destruct (rxav y =? 0) eqn:Ea.
      * apply Nat.eqb_eq in Ea. cbn [wp]. replace (set_io y d) with (set_toRead (toRead d - Z.of_nat (@length ascii []))%Z (set_io y d))
          by (ddev d; cbn [set_toRead set_io toRead io length Z.of_nat]; rewrite Z.sub_0_r; reflexivity). apply HQ; cbn; auto; lia.
      * apply Nat.eqb_neq in Ea. apply wp_bind.
        assert (Hwy : serial_wf (ser y)) by exact (ioeff_wf _ _ _ _ Hq).
        apply wp_getc; cbn [io set_io]; unfold swf; cbn [io set_io]; auto; try lia. intros c y2 E2 Hf2.
        rewrite set_io_io. apply IH; unfold swf; cbn [io set_toRead set_io toRead].
        -- exact (ioeff_wf _ _ _ _ E2). -- lia.
        -- intros y3 tk E3 Hz Hpos.
           replace (set_toRead _ (set_io y3 _)) with (set_toRead (toRead d - Z.of_nat (length (c :: tk)))%Z (set_io y3 d)).
           2:{ ddev d; cbn [set_toRead set_io toRead]. replace (td0 - 1 - Z.of_nat (length tk))%Z with (td0 - Z.of_nat (length (c :: tk)))%Z by (cbn [length]; lia). reflexivity. }
           apply HQ.
           ++ exact (ioeff_trans _ _ _ [] [] (c :: tk) [] Hq (ioeff_trans _ _ _ [c] [] tk [] E2 E3)).
           ++ cbn [length]. destruct Hz; [left|right]; lia.
           ++ cbn [length]. lia.
Qed.

Lemma wp_flush_read_buffer : forall (U : Prop) d (Q : _ -> Prop), swf d -> (0 <= toRead d)%Z ->
  (forall y tk, ioeff (io d) y tk [] -> (Z.of_nat (length tk) = toRead d \/ rxav y = 0) ->
     (Z.of_nat (length tk) <= toRead d)%Z ->
     Q (let d1 := set_toReceive 0%Z (set_toRead (toRead d - Z.of_nat (length tk))%Z (set_io y d)) in
        if (toRead d =? Z.of_nat (length tk))%Z then on_line true d1 else d1)) ->
  wp U (at_flush_read_buffer d) Q.
Proof.
  intros U d Q H H0 HQ. unfold at_flush_read_buffer. apply wp_bind. apply wp_flush_loop; [assumption|lia|].
  intros y tk E Hz Hp. cbn [wp toRead set_toReceive set_toRead].
  replace (toRead d - Z.of_nat (length tk) =? 0)%Z with (toRead d =? Z.of_nat (length tk))%Z by lia.
  apply HQ; auto. destruct Hz; [left; lia|auto].
Qed.

(** *** Line assembly *)

(** Does this byte end the line (whose length is then [n])? *)
Definition at_end (c : ascii) (n : nat) : bool := aeqb c LF || aeqb c GT || (n =? LINE_MAX_LENGTH).

(** A complete line: it ends at its first '\n' or '>', or at 60 bytes. *)
Definition whole_line (L : bytes) : Prop :=
  exists body c, L = body ++ [c] /\ at_end c (length L) = true /\
    (forall a x b, body = a ++ x :: b -> at_end x (S (length a)) = false).
Definition partial_line (L : bytes) : Prop :=
  forall a x b, L = a ++ x :: b -> at_end x (S (length a)) = false.

Lemma partial_nil : partial_line [].
Proof. intros a x b H. destruct a; discriminate. Qed.
Lemma app_snoc_inv : forall A (L a b : list A) x c, L ++ [c] = a ++ x :: b ->
  (b = [] /\ L = a /\ c = x) \/ (exists b', b = b' ++ [c] /\ L = a ++ x :: b').
Proof.
  intros A L a b x c H. destruct b as [|z b _] using rev_ind.
  - left. apply app_inj_tail in H as [-> ->]. auto.
  - right. exists b. change (a ++ x :: b ++ [z]) with (a ++ (x :: b) ++ [z]) in H. rewrite app_assoc in H.
    apply app_inj_tail in H as [-> ->]. auto.
Qed.
Lemma partial_snoc : forall L c, partial_line L -> at_end c (S (length L)) = false -> partial_line (L ++ [c]).
Proof.
  intros L c H E a x b Hs. apply app_snoc_inv in Hs as [(-> & -> & ->)|(b' & -> & ->)]; [assumption|].
  eapply H; reflexivity.
Qed.
Lemma partial_short : forall L, partial_line L -> length L <= 59.
Proof.
  intros L H. destruct (le_lt_dec (length L) 59) as [|Hl]; [assumption|exfalso].
  assert (Hs : exists x, nth_error L 59 = Some x).
  { destruct (nth_error L 59) eqn:E; [eauto|]. apply nth_error_None in E. lia. }
  destruct Hs as [x Hx]. apply nth_error_split in Hx as (a & b & Ha & Hb).
  specialize (H a x b Ha). unfold at_end in H. rewrite Hb in H. cbn in H. rewrite orb_true_r in H. discriminate.
Qed.
Lemma whole_short : forall L, whole_line L -> 1 <= length L <= 60.
Proof.
  intros L (body & c & -> & _ & H). rewrite app_length. cbn. pose proof (partial_short body H). lia.
Qed.

Lemma at_fill_loop_spec : forall fuel (U : Prop) d (Q : _ -> Prop), swf d -> length (lbuf d) = 61 ->
  partial_line (firstn (lbfill d) (lbuf d)) -> lbfill d <= 59 -> 60 <= lbfill d + fuel ->
  (forall y tk lb, ioeff (io d) y tk [] -> length lb = 61 ->
     partial_line (firstn (lbfill d) (lbuf d) ++ tk) -> rxav y = 0 ->
     firstn (lbfill d + length tk) lb = firstn (lbfill d) (lbuf d) ++ tk -> lbfill d + length tk <= 59 ->
     Q (false, set_lbfill (lbfill d + length tk) (set_lbuf lb (set_io y d)))) ->
  (forall y tk lb, ioeff (io d) y tk [] -> length lb = 61 -> tk <> [] ->
     whole_line (firstn (lbfill d) (lbuf d) ++ tk) ->
     (exists r, lb = (firstn (lbfill d) (lbuf d) ++ tk) ++ NUL :: r) ->
     Q (true, set_lbfill 0 (set_lbuf lb (set_io y d)))) ->
  wp U (at_fill_loop fuel d) Q.
Proof.
  induction fuel as [|fuel IH]; intros U d Q H Hlen Hp Hfill Hfuel HQ1 HQ2; cbn [at_fill_loop]; [lia|].
  apply wp_bind. apply wp_avail; [assumption|]. intros y E.
  destruct (rxav y =? 0) eqn:Ea.
  - apply Nat.eqb_eq in Ea. cbn [wp]. specialize (HQ1 y [] (lbuf d)). cbn [length] in HQ1. rewrite Nat.add_0_r, app_nil_r in HQ1.
    replace (set_io y d) with (set_lbfill (lbfill d) (set_lbuf (lbuf d) (set_io y d))) by (ddev d; reflexivity). auto.
  - apply Nat.eqb_neq in Ea. apply wp_bind.
    apply wp_getc; [exact (ioeff_wf _ _ _ _ E)|cbn [io set_io]; lia|]. intros c y2 E2 _. rewrite set_io_io. cbn [io set_io] in E2.
    pose proof (ioeff_trans _ _ _ [] [] [c] [] E E2) as E3. cbn [app] in E3.
    cbn [lbuf lbfill set_io]. rewrite wr_ok by lia. cbn [bind].
    set (lb1 := list_set (lbuf d) (lbfill d) c).
    assert (Hl1 : length lb1 = 61) by (unfold lb1; rewrite list_set_length; assumption).
    assert (Hf1 : firstn (S (lbfill d)) lb1 = firstn (lbfill d) (lbuf d) ++ [c]).
    { unfold lb1. rewrite list_set_app by lia. rewrite firstn_app, firstn_length.
      replace (S (lbfill d) - Nat.min (lbfill d) (length (lbuf d))) with 1 by lia.
      rewrite firstn_all2 by (rewrite firstn_length; lia). reflexivity. }
    assert (HL : length (firstn (lbfill d) (lbuf d)) = lbfill d) by (rewrite firstn_length; lia).
    cbn [lbfill set_lbfill]. change (aeqb c LF || aeqb c GT || (S (lbfill d) =? LINE_MAX_LENGTH)) with (at_end c (S (lbfill d))).
    destruct (at_end c (S (lbfill d))) eqn:Ee.
    + cbn [lbuf lbfill set_lbfill set_lbuf]. rewrite wr_ok by lia. cbn [bind wp].
      set (lb2 := list_set lb1 (S (lbfill d)) NUL).
      replace (set_lbfill 0 (set_lbuf lb2 _)) with (set_lbfill 0 (set_lbuf lb2 (set_io y2 d))) by (ddev d; reflexivity).
      apply (HQ2 y2 [c] lb2); auto; try discriminate.
      * unfold lb2. rewrite list_set_length. assumption.
      * exists (firstn (lbfill d) (lbuf d)), c. splits; auto. rewrite app_length, HL. cbn [length].
        rewrite Nat.add_1_r. assumption.
      * exists (skipn (S (S (lbfill d))) lb1). unfold lb2. rewrite list_set_app by lia. rewrite Hf1. reflexivity.
    + assert (Hp2 : partial_line (firstn (lbfill d) (lbuf d) ++ [c])) by (apply partial_snoc; [assumption|rewrite HL; assumption]).
      pose proof (partial_short _ Hp2) as Hs2. rewrite app_length, HL in Hs2. cbn [length] in Hs2.
      apply IH; unfold swf; cbn [io set_io lbuf lbfill set_lbfill set_lbuf]; auto; try lia.
      * exact (ioeff_wf _ _ _ _ E3).
      * rewrite Hf1. assumption.
      * intros y3 tk lb E4 Hlb Hpl Hrx Hfn Hle.
        replace (set_lbfill _ (set_lbuf lb (set_io y3 _))) with
          (set_lbfill (lbfill d + length (c :: tk)) (set_lbuf lb (set_io y3 d))).
        2:{ ddev d; cbn [set_lbfill set_lbuf set_io lbfill]. replace (S lf0 + length tk) with (lf0 + length (c :: tk)) by (cbn [length]; lia). reflexivity. }
        rewrite Hf1 in Hpl, Hfn. rewrite <- app_assoc in Hpl, Hfn. cbn [app] in Hpl, Hfn.
        apply HQ1; auto.
        -- exact (ioeff_trans _ _ _ [c] [] tk [] E3 E4).
        -- rewrite <- Hfn. f_equal. cbn [length]. lia.
        -- cbn [length]. lia.
      * intros y3 tk lb E4 Hlb Hne Hw [r Hr].
        replace (set_lbfill _ (set_lbuf lb (set_io y3 _))) with (set_lbfill 0 (set_lbuf lb (set_io y3 d))) by (ddev d; reflexivity).
        rewrite Hf1 in Hw, Hr. rewrite <- app_assoc in Hw, Hr. cbn [app] in Hw, Hr.
        apply (HQ2 y3 (c :: tk) lb); auto; try discriminate.
        -- exact (ioeff_trans _ _ _ [c] [] tk [] E3 E4).
        -- exists r. rewrite Hr. rewrite <- ?app_assoc. reflexivity.
Qed.

(** The line buffer as the invariant of every driver sees it. *)
Definition line_ok d : Prop :=
  length (lbuf d) = 61 /\ lbfill d <= 59 /\ partial_line (firstn (lbfill d) (lbuf d)).

(** fillLineBuffer() *)
Lemma wp_fill : forall (U : Prop) d (Q : _ -> Prop), swf d -> line_ok d ->
  (fLine (fl d) = false -> Q (false, d)) ->
  (forall y tk lb, fLine (fl d) = true -> ioeff (io d) y tk [] -> length lb = 61 ->
     partial_line (firstn (lbfill d) (lbuf d) ++ tk) -> rxav y = 0 ->
     firstn (lbfill d + length tk) lb = firstn (lbfill d) (lbuf d) ++ tk -> lbfill d + length tk <= 59 ->
     Q (false, set_lbfill (lbfill d + length tk) (set_lbuf lb (set_io y d)))) ->
  (forall y tk lb, fLine (fl d) = true -> ioeff (io d) y tk [] -> length lb = 61 -> tk <> [] ->
     whole_line (firstn (lbfill d) (lbuf d) ++ tk) ->
     (exists r, lb = (firstn (lbfill d) (lbuf d) ++ tk) ++ NUL :: r) ->
     Q (true, set_lbfill 0 (set_lbuf lb (set_io y d)))) ->
  wp U (at_fill d) Q.
Proof.
  intros U d Q H (L1 & L2 & L3) HQ0 HQ1 HQ2. unfold at_fill. destruct (fLine (fl d)) eqn:Ef.
  - apply at_fill_loop_spec; auto; try (unfold LINE_MAX_LENGTH; lia). intros. eapply HQ2; eauto.
  - cbn [wp]. auto.
Qed.

(** *** Sending *)

Lemma skipn_S_cons : forall A n (x : A) l, skipn (S n) (x :: l) = skipn n l.
Proof. reflexivity. Qed.

Lemma wp_send_loop : forall n (U : Prop) d (Q : _ -> Prop), swf d -> ring_wf (wbuf d) -> 0 < rsize (wbuf d) ->
  (forall y ev r, sstep (io d) y ev -> taken ev = [] -> ~ In EvFlushed ev -> rxav (io d) <= rxav y ->
     txav y <= txav (io d) + n -> length (put ev) <= n ->
     (clean ev -> length (put ev) = n) -> (txav (io d) + n <= txsz (io d) -> clean ev) ->
     ring_wf r -> rsize r = rsize (wbuf d) -> avail r = avail (wbuf d) - n ->
     (ring_ok (wbuf d) -> n <= avail (wbuf d) ->
        ring_ok r /\ contents r = skipn n (contents (wbuf d)) /\ (clean ev -> put ev = firstn n (contents (wbuf d)))) ->
     Q (set_wbuf r (set_io y d))) ->
  wp U (at_send_loop n d) Q.
Proof.
  induction n as [|n IH]; intros U d Q H Hr Hs HQ; cbn [at_send_loop].
  - cbn [wp]. replace d with (set_wbuf (wbuf d) (set_io (io d) d)) at 1 by (ddev d; reflexivity).
    apply (HQ (io d) [] (wbuf d)); cbn; auto; try lia. apply sstep_refl; assumption. reflexivity.
  - destruct (ring_pull_spec (wbuf d) Hr Hs) as (c & Hc & Ep). apply wp_bind. rewrite Ep. cbn [wp].
    set (r1 := mkRing _ _ _ _ _). pose proof (ring_pull_wf _ _ _ Hr Ep) as Hw1. fold r1 in Hw1.
    apply wp_bind. unfold d_putc, s_write. cbn [io set_wbuf].
    destruct (s_copy_q c (io d) H) as (y1 & e1 & E1 & S1 & T1 & F1 & R1 & X1 & D1 & C1). rewrite E1. cbn [bind wp].
    apply IH; unfold swf; cbn [io set_io set_wbuf wbuf]; auto.
    + exact (sstep_wf _ _ _ S1).
    + intros y ev r S2 T2 F2 R2 X2 L2 P2 C2 Hwr Hsr Hav Hok.
      replace (set_wbuf r (set_io y _)) with (set_wbuf r (set_io y d)) by (ddev d; reflexivity).
      destruct (sstep_caps _ _ _ S1) as [_ Hsz].
      assert (Hp1 : length (put e1) <= 1 /\ (clean e1 -> put e1 = [c])).
      { destruct D1 as [[_ ->]|[Hn ->]]; cbn; split; auto. intro; contradiction. }
      apply (HQ y (e1 ++ ev) r); auto; try lia.
      * eapply sstep_trans; eassumption.
      * rewrite taken_app, T1, T2. reflexivity.
      * rewrite in_app_iff. tauto.
      * rewrite put_app, app_length. lia.
      * rewrite clean_app, put_app, app_length. intros [A B]. destruct Hp1 as [_ Hp1]. rewrite Hp1 by assumption.
        cbn [length]. rewrite P2 by assumption. lia.
      * intro Hroom. apply clean_app. split; [apply C1; lia|apply C2; lia].
      * unfold r1 in Hav; cbn [avail] in Hav. lia.
      * intros Hrok Hle. assert (Hpos : 0 < avail (wbuf d)) by lia.
        pose proof (ring_pull_contents _ _ _ Hr Hpos Ep) as Hct. fold r1 in Hct.
        destruct (ring_pull_some _ _ _ Hrok Hct) as (r2 & Er2 & Hok2 & _). rewrite Ep in Er2. injection Er2 as Er2. fold r1 in Er2.
        rewrite <- Er2 in Hok2. destruct (Hok Hok2) as (A & B & C); [unfold r1; cbn [avail]; lia|].
        split; [assumption|]. rewrite Hct. split; [assumption|]. rewrite clean_app. intros [Ca Cb].
        rewrite put_app. destruct Hp1 as [_ Hp1]. rewrite Hp1, C by assumption. reflexivity.
Qed.

Lemma wp_send_data : forall (U : Prop) d (Q : _ -> Prop), swf d -> ring_wf (wbuf d) -> 0 < rsize (wbuf d) ->
  (forall y ev r, sstep (io d) y ev -> taken ev = [] -> ~ In EvFlushed ev -> rxav (io d) <= rxav y ->
     txav y <= txav (io d) + Z.to_nat (toWrite d) -> length (put ev) <= Z.to_nat (toWrite d) ->
     (clean ev -> length (put ev) = Z.to_nat (toWrite d)) -> (txav (io d) + Z.to_nat (toWrite d) <= txsz (io d) -> clean ev) ->
     ring_wf r -> rsize r = rsize (wbuf d) -> avail r = avail (wbuf d) - Z.to_nat (toWrite d) ->
     (ring_ok (wbuf d) -> Z.to_nat (toWrite d) <= avail (wbuf d) ->
        ring_ok r /\ contents r = skipn (Z.to_nat (toWrite d)) (contents (wbuf d)) /\
        (clean ev -> put ev = firstn (Z.to_nat (toWrite d)) (contents (wbuf d)))) ->
     Q (set_toWrite (u64 (-1)) (set_wbuf r (set_io y d)))) ->
  wp U (at_send_data d) Q.
Proof.
  intros U d Q H Hr Hs HQ. unfold at_send_data. apply wp_bind. apply wp_send_loop; auto.
Qed.

(** Sizes of real buffers fit the Size type. *)
Definition fits (n : nat) : Prop := (Z.of_nat n < 18446744073709551616)%Z.
Lemma u64_small : forall z, (0 <= z < 18446744073709551616)%Z -> u64 z = z.
Proof. intros z H. unfold u64. apply Z.mod_small. assumption. Qed.
Lemma u64_range : forall z, (0 <= u64 z < 18446744073709551616)%Z.
Proof. intro z. unfold u64. apply Z.mod_pos_bound. lia. Qed.

Lemma tx_le : forall y, serial_wf (ser y) -> txav y <= txsz y.
Proof. intros y [_ [(_ & H & _) _]]. exact H. Qed.
Lemma rx_le : forall y, serial_wf (ser y) -> rxav y <= rxsz y.
Proof. intros y [[(_ & H & _) _] _]. exact H. Qed.

Definition cipsend (ch : bool) (n : Z) : bytes := bs "AT+CIPSEND=" ++ (if ch then bs "0," else []) ++ snprintf6 n.

Lemma quiet_still : forall y y', sched y = [] -> isr_point y = Ok y' -> y' = y.
Proof. intros y y' H E. unfold isr_point in E. rewrite H in E. injection E as <-. reflexivity. Qed.

(** d_space in a form that keeps the "no interrupts" case. *)
Lemma wp_space' : forall (U : Prop) d (Q : _ -> Prop), swf d ->
  (forall y, ioeff (io d) y [] [] -> (sched (io d) = [] -> y = io d) -> Q (txsz y - txav y, set_io y d)) -> wp U (d_space d) Q.
Proof.
  intros U d Q H HQ. unfold d_space, s_space_available. destruct (isr_point_quiet (io d) H) as (y & E & Hq). rewrite E.
  cbn [bind wp]. apply HQ; [apply quiet_ioeff, Hq|]. intro Hs. eapply quiet_still; eassumption.
Qed.
Lemma wp_avail' : forall (U : Prop) d (Q : _ -> Prop), swf d ->
  (forall y, ioeff (io d) y [] [] -> (sched (io d) = [] -> y = io d) -> Q (rxav y, set_io y d)) -> wp U (d_avail d) Q.
Proof.
  intros U d Q H HQ. unfold d_avail, s_bytes_available. destruct (isr_point_quiet (io d) H) as (y & E & Hq). rewrite E.
  cbn [bind wp]. apply HQ; [apply quiet_ioeff, Hq|]. intro Hs. eapply quiet_still; eassumption.
Qed.

Lemma wp_prepare_sending : forall (U : Prop) ch d (Q : _ -> Prop), swf d -> fits (txsz (io d)) -> fits (avail (wbuf d)) ->
  (forall y, ioeff (io d) y [] [] -> txsz y - txav y < MIN_SPACE_AVAILABLE -> Q (false, set_io y d)) ->
  (forall y1 y n, ioeff (io d) y1 [] [] -> wroteb y1 y (cipsend ch n) ->
     (0 <= n)%Z -> (n + Z.of_nat MIN_SPACE_AVAILABLE <= Z.of_nat (txsz y1) - Z.of_nat (txav y1))%Z ->
     (sched (io d) = [] -> n = Z.min (Z.of_nat (avail (wbuf d)))
                                 (Z.of_nat (txsz (io d)) - Z.of_nat (txav (io d)) - Z.of_nat MIN_SPACE_AVAILABLE)%Z) ->
     Q (true, set_wait (Some (bs ">")) (set_toWrite n (set_io y d)))) ->
  wp U (at_prepare_sending ch d) Q.
Proof.
  intros U ch d Q H Hfit Hfw HQ1 HQ2. unfold at_prepare_sending. apply wp_bind. apply wp_space'; [assumption|]. intros y1 E1 Z1.
  destruct (txsz y1 - txav y1 <? MIN_SPACE_AVAILABLE) eqn:Es.
  { apply Nat.ltb_lt in Es. cbn [wp]. apply HQ1; assumption. }
  apply Nat.ltb_ge in Es.
  assert (W1 : serial_wf (ser y1)) by exact (ioeff_wf _ _ _ _ E1).
  apply wp_bind. apply wp_space'; [exact W1|]. intros y2 E2 Z2. cbn [io set_io] in E2, Z2.
  rewrite set_io_io. cbn [wbuf set_io].
  destruct (ioeff_caps _ _ _ _ E1) as [_ C1]. destruct (ioeff_caps _ _ _ _ E2) as [_ C2].
  destruct (ioeff_av _ _ _ _ E1) as [_ A1]. destruct (ioeff_av _ _ _ _ E2) as [_ A2]. cbn [length] in A1, A2.
  pose proof (tx_le _ W1) as T1.
  assert (W2 : serial_wf (ser y2)) by exact (ioeff_wf _ _ _ _ E2). pose proof (tx_le _ W2) as T2.
  unfold fits in Hfit, Hfw. unfold MIN_SPACE_AVAILABLE in *.
  rewrite u64_small by lia.
  assert (Hcmd : forall y3 n, ioeff (io d) y3 [] [] -> (0 <= n)%Z ->
     (n + 22 <= Z.of_nat (txsz y3) - Z.of_nat (txav y3))%Z ->
     (sched (io d) = [] -> n = Z.min (Z.of_nat (avail (wbuf d)))
                                 (Z.of_nat (txsz (io d)) - Z.of_nat (txav (io d)) - 22)%Z) ->
     wp U (let* d0 := w_str (bs "AT+CIPSEND=") (set_toWrite n (set_io y3 d)) in
           let* d0 := (if ch then w_str (bs "0,") d0 else Ok d0) in
           let* d0 := w_str (snprintf6 n) d0 in Ok (true, set_wait (Some (bs ">")) d0))%res Q).
  { intros y3 n E3 Hn0 Hn1 Hn2. assert (W3 : serial_wf (ser y3)) by exact (ioeff_wf _ _ _ _ E3).
    apply wp_bind. apply wp_w_str; [exact W3|]. intros y4 B4. cbn [io set_io set_toWrite] in B4.
    change (cbody (bs "AT+CIPSEND=")) with (bs "AT+CIPSEND=") in B4.
    apply wp_bind.
    assert (Hfin : forall y5, wroteb y3 y5 (bs "AT+CIPSEND=" ++ (if ch then bs "0," else [])) ->
      wp U (let* d0 := w_str (snprintf6 n) (set_io y5 (set_toWrite n d)) in Ok (true, set_wait (Some (bs ">")) d0))%res Q).
    { intros y5 B5. apply wp_bind. apply wp_w_str; [exact (wroteb_wf _ _ _ B5)|]. intros y6 B6. cbn [io set_io] in B6.
      rewrite set_io_io. cbn [wp].
      replace (set_io y6 (set_toWrite n d)) with (set_toWrite n (set_io y6 d)) by (ddev d; reflexivity).
      apply (HQ2 y3 y6 n); auto. unfold cipsend. rewrite app_assoc. eapply wroteb_trans; [exact B5|].
      rewrite cbody_free in B6 by apply snprintf6_free. exact B6. }
    replace (set_io y4 (set_toWrite n (set_io y3 d))) with (set_io y4 (set_toWrite n d)) by (ddev d; reflexivity).
    destruct ch.
    - apply wp_w_str; [exact (wroteb_wf _ _ _ B4)|]. intros y5 B5. cbn [io set_io] in B5. rewrite set_io_io.
      apply Hfin. eapply wroteb_trans; [exact B4|exact B5].
    - cbn [wp]. apply Hfin. rewrite app_nil_r. exact B4. }
  assert (E12 : ioeff (io d) y2 [] []) by exact (ioeff_trans _ _ _ _ _ _ _ E1 E2).
  apply wp_bind. destruct (Z.ltb_spec (Z.of_nat (txsz y2 - txav y2) - Z.of_nat 22) (Z.of_nat (avail (wbuf d)))).
  - apply wp_bind. apply wp_space'; [exact W2|]. intros y3 E3 Z3. cbn [io set_io] in E3, Z3. rewrite set_io_io.
    destruct (ioeff_caps _ _ _ _ E3) as [_ C3]. destruct (ioeff_av _ _ _ _ E3) as [_ A3]. cbn [length] in A3.
    assert (W3 : serial_wf (ser y3)) by exact (ioeff_wf _ _ _ _ E3). pose proof (tx_le _ W3) as T3.
    rewrite u64_small by lia. cbn [wp]. apply Hcmd; try lia.
    + exact (ioeff_trans _ _ _ _ _ _ _ E12 E3).
    + intro Hs. specialize (Z1 Hs). subst y1. specialize (Z2 Hs). subst y2. specialize (Z3 Hs). subst y3. lia.
  - cbn [wp]. apply Hcmd; try lia; auto.
    intro Hs. specialize (Z1 Hs). subst y1. specialize (Z2 Hs). subst y2. lia.
Qed.

(** *** Size of a receive request *)
Lemma zmin_if : forall a b, (if (b <? a)%Z then b else a) = Z.min a b.
Proof. intros a b. destruct (Z.ltb_spec b a); lia. Qed.

Lemma wp_rx_request : forall (U : Prop) margin mx d (Q : _ -> Prop), swf d -> fits (rxsz (io d)) ->
  (forall y, ioeff (io d) y [] [] -> (rxsz (io d) - rxav y <= margin \/ ring_space (rbuf d) = 0) ->
     Q (None, set_io y d)) ->
  (forall y n, ioeff (io d) y [] [] -> 0 < ring_space (rbuf d) ->
     n = Z.min (Z.min (Z.min (u64 (Z.of_nat (rxsz (io d)) - Z.of_nat (rxav y) - Z.of_nat margin)) (toReceive d))
                      (Z.of_nat (ring_space (rbuf d)))) mx ->
     (sched (io d) = [] -> y = io d /\ margin < rxsz (io d) - rxav (io d)) ->
     Q (Some n, set_io y d)) ->
  wp U (rx_request_size margin mx d) Q.
Proof.
  intros U margin mx d Q H Hfit HQ1 HQ2. unfold rx_request_size. apply wp_bind. apply wp_avail'; [assumption|].
  intros y1 E1 Z1. cbn [rbuf set_io]. fold (rxsz (io d)).
  assert (W1 : serial_wf (ser y1)) by exact (ioeff_wf _ _ _ _ E1). pose proof (rx_le _ W1) as R1.
  destruct (ioeff_caps _ _ _ _ E1) as [C1 _]. unfold fits in Hfit. rewrite (u64_small (Z.of_nat (rxsz (io d)) - Z.of_nat (rxav y1))) by lia.
  destruct (Z.ltb_spec (Z.of_nat margin) (Z.of_nat (rxsz (io d)) - Z.of_nat (rxav y1))).
  - destruct (Nat.ltb_spec 0 (ring_space (rbuf d))).
    + cbn [andb]. apply wp_bind. apply wp_avail'; [exact W1|]. intros y2 E2 Z2. cbn [io set_io] in E2, Z2. rewrite set_io_io.
      cbn [toReceive rbuf set_io wp]. apply HQ2; auto.
      * exact (ioeff_trans _ _ _ _ _ _ _ E1 E2).
      * rewrite !zmin_if. reflexivity.
      * intro Hs. specialize (Z1 Hs). subst y1. specialize (Z2 Hs). subst y2. split; [reflexivity|lia].
    + cbn [andb wp]. apply HQ1; auto. right. lia.
  - cbn [andb wp]. apply HQ1; auto. left. lia.
Qed.

(** *** resetStates *)
Lemma wp_reset_states : forall (U : Prop) s0 r0 rs d (Q : _ -> Prop), swf d ->
  (forall y ev, sstep (io d) y ev -> clean ev -> taken ev = [] -> put ev = [] -> rxav y = 0 -> txav y <= txav (io d) ->
     (forall q, rx_replay ev q = Some []) -> lring_is (srx (ser y)) [] ->
     Q (mkDev y (isopen d) (ring_flush (rbuf d)) (ring_flush (wbuf d)) (typ d) (host d) (port d) flags_line_read
          csNotConnected None (lbuf d) 0 s0 r0 0%Z 0%Z 0%Z rs (tsk d) (ext d))) ->
  wp U (at_reset_states s0 r0 rs d) Q.
Proof.
  intros U s0 r0 rs d Q H HQ. unfold at_reset_states. apply wp_bind. apply wp_flush_rx; [assumption|].
  intros y ev A1 A2 A3 A4 A5 A6 A7 A8. cbn [wp]. specialize (HQ y ev A1 A2 A3 A4 A5 A6 A7 A8). ddev d. exact HQ.
Qed.

End Rules.

(** ** Symbolic execution *)

Ltac dsimp :=
  cbn [io isopen rbuf wbuf typ host port fl cst wait lbuf lbfill sst rst toWrite toReceive toRead rssi tsk ext
       set_io set_isopen set_rbuf set_wbuf set_typ set_host set_port set_fl set_cst set_wait set_lbuf set_lbfill
       set_sst set_rst set_toWrite set_toReceive set_toRead set_rssi set_tsk set_ext
       on_connect on_reset on_data on_disc on_ip on_line on_lock dev_set_delay
       fConnect fReset fData fDisc fIp fLine fLock fst snd negb andb orb
       at_handle_disconnect at_handle_connect flags_line_read] in *.

Ltac wfser :=
  unfold swf; cbn [io];
  match goal with
  | H : serial_wf (ser ?y) |- serial_wf (ser ?y) => exact H
  | H : swf ?d |- serial_wf (ser (io ?d)) => exact H
  | H : ioeff _ ?y _ _ |- serial_wf (ser ?y) => exact (ioeff_wf _ _ _ _ H)
  | H : wroteb _ ?y _ |- serial_wf (ser ?y) => exact (wroteb_wf _ _ _ H)
  | H : sstep _ ?y _ |- serial_wf (ser ?y) => exact (sstep_wf _ _ _ H)
  end.

Ltac lfree := let H := fresh in intro H; cbn in H; intuition discriminate.

(** Sizes seen through a chain of port effects. *)
Lemma ioeff_rxsz : forall y y' t p, ioeff y y' t p -> rxsz y' = rxsz y.
Proof. intros. eapply ioeff_caps; eassumption. Qed.
Lemma ioeff_txsz : forall y y' t p, ioeff y y' t p -> txsz y' = txsz y.
Proof. intros. eapply ioeff_caps; eassumption. Qed.
Lemma wroteb_rxsz : forall y y' s, wroteb y y' s -> rxsz y' = rxsz y.
Proof. intros y y' s (p & H & _). eapply ioeff_rxsz; eassumption. Qed.
Lemma wroteb_txsz : forall y y' s, wroteb y y' s -> txsz y' = txsz y.
Proof. intros y y' s (p & H & _). eapply ioeff_txsz; eassumption. Qed.
Lemma sstep_rxsz : forall y y' e, sstep y y' e -> rxsz y' = rxsz y.
Proof. intros. eapply sstep_caps; eassumption. Qed.
Lemma sstep_txsz : forall y y' e, sstep y y' e -> txsz y' = txsz y.
Proof. intros. eapply sstep_caps; eassumption. Qed.

Ltac sizes := repeat match goal with
  | H : ioeff ?a ?b _ _ |- context [txsz ?b] => rewrite (ioeff_txsz _ _ _ _ H)
  | H : ioeff ?a ?b _ _ |- context [rxsz ?b] => rewrite (ioeff_rxsz _ _ _ _ H)
  | H : wroteb ?a ?b _ |- context [txsz ?b] => rewrite (wroteb_txsz _ _ _ H)
  | H : wroteb ?a ?b _ |- context [rxsz ?b] => rewrite (wroteb_rxsz _ _ _ H)
  | H : sstep ?a ?b _ |- context [txsz ?b] => rewrite (sstep_txsz _ _ _ H)
  | H : sstep ?a ?b _ |- context [rxsz ?b] => rewrite (sstep_rxsz _ _ _ H)
  end.

(** The part of the invariant every driver shares. *)
Definition wait_ok (w : option bytes) : Prop := match w with Some s => ~ In NUL s /\ length s <= 20 | None => True end.

Definition dok {SS RS X} (d : dev SS RS X) : Prop :=
  serial_wf (ser (io d)) /\ fits (rxsz (io d)) /\ fits (txsz (io d)) /\
  ring_wf (rbuf d) /\ 0 < rsize (rbuf d) /\ ring_wf (wbuf d) /\ 0 < rsize (wbuf d) /\ fits (rsize (wbuf d)) /\
  line_ok d /\ wait_ok (wait d) /\ (0 <= toRead d)%Z /\ (0 <= toReceive d)%Z /\ (0 <= port d < 65536)%Z.

Lemma fits_avail : forall A (r : ring A), ring_wf r -> fits (rsize r) -> fits (avail r).
Proof. intros A r (_ & H & _) Hf. unfold fits in *. lia. Qed.
