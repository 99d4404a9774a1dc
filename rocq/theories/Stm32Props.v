(** The serial port of STM32 controllers: C63, C64, C66 and C67. *)
From Coq Require Import Ascii String ZArith List Bool Arith Lia ZifyBool.
From Verif Require Import Base QueueSpec LineSpec SerialSpec Ring LineRing Serial SerialProofs LineRingProofs RingProofs Stm32 Stm32Proofs.
Import ListNotations.
Local Open Scope nat_scope.

(** ** C64, C63: the serial settings *)
Theorem C64_stm32_accepts : forall rate bits c c' b, stm_config rate bits c = (b, c') ->
  (b = true <-> (50 <= rate <= 4500000 /\ (bits = 8 \/ bits = 9))%Z) /\
  (b = true -> uc_baud c' = rate /\ uc_word c' = (4096 * (bits - 8))%Z).
Proof.
  intros rate bits c c' b H. unfold stm_config in H. destruct ((rate <? 50) || (4500000 <? rate))%Z eqn:E.
  - apply pair_equal_spec in H as [<- <-]. split; [|discriminate]. split; [discriminate|]. lia.
  - assert (D : (bits = 8 \/ bits = 9 \/ (bits <> 8 /\ bits <> 9))%Z) by lia. destruct D as [->|[->|[D1 D2]]].
    + apply pair_equal_spec in H as [<- <-]. cbn [uc_baud uc_word]. split; [|auto]. split; [|auto]. lia.
    + apply pair_equal_spec in H as [<- <-]. cbn [uc_baud uc_word]. split; [|auto]. split; [|auto]. lia.
    + assert (K : (false, mkUconf rate (uc_word c)) = (b, c')).
      { rewrite <- H. repeat match goal with |- context [match ?x with _ => _ end] => is_var x; destruct x; try reflexivity; try lia end. }
      apply pair_equal_spec in K as [<- <-]. split; [|discriminate]. split; [discriminate|]. lia.
Qed.
Example C64_stm32_case : stm_config 9600 9 uconf_new = (true, mkUconf 9600 4096).
Proof. reflexivity. Qed.
Theorem C63_stm32_rate : forall rate bits c, ~ (50 <= rate <= 4500000)%Z -> stm_config rate bits c = (false, c).
Proof. intros rate bits c H. unfold stm_config. replace ((rate <? 50) || (4500000 <? rate))%Z with true by lia. reflexivity. Qed.
(** With a rate in range and a wrong number of bits the rate is changed all the
    same. *)
Theorem C63_stm32_refuted : forall rate bits c, (50 <= rate <= 4500000)%Z -> bits <> 8%Z -> bits <> 9%Z ->
  stm_config rate bits c = (false, mkUconf rate (uc_word c)).
Proof.
  intros rate bits c H D1 D2. unfold stm_config. replace ((rate <? 50) || (4500000 <? rate))%Z with false by lia. cbn [uc_word].
  repeat match goal with |- context [match ?x with _ => _ end] => is_var x; destruct x; try reflexivity; try lia end.
Qed.
Example C63_stm32_case : stm_config 9600 7 uconf_new = (false, mkUconf 9600 0).
Proof. reflexivity. Qed.

(** ** C66: the table of instances *)

(** The objects constructed, in order, with the peripheral of each. *)
Fixpoint constructed (h : list regop) : list (nat * Z) :=
  match h with
  | [] => []
  | RNew a u :: h => (a, u) :: constructed h
  | RDelete _ :: h => constructed h
  end.

Lemma reg_add_shape : forall l m a, reg_add (map Some l ++ repeat None m) a = map Some (firstn (length l + m) (l ++ [a])) ++ repeat None (m - 1).
Proof.
  induction l as [|b l IH]; intros m a; cbn [map app length].
  - destruct m as [|m]; [reflexivity|]. cbn [repeat reg_add Nat.add firstn map app]. rewrite firstn_nil. replace (S m - 1) with m by lia. reflexivity.
  - cbn [reg_add Nat.add firstn map app]. rewrite IH. reflexivity.
Qed.
(** The table holds the first N objects ever constructed, whatever was destroyed
    since. *)
Theorem C66_stm32_table : forall n h r, reg_hist (registry_new n) h r ->
  slots r = map Some (firstn n (map fst (constructed h))) ++ repeat None (n - length (constructed h)).
Proof.
  assert (G : forall r h r', reg_hist r h r' -> forall l m, slots r = map Some l ++ repeat None m ->
    slots r' = map Some (firstn (length l + m) (l ++ map fst (constructed h))) ++ repeat None (m - length (constructed h))).
  { intros r h r' H. induction H as [r|r a u h r' Hl Hh IH|r a h r' Hl Hh IH]; intros l m E.
    - cbn [constructed map length]. rewrite app_nil_r, Nat.sub_0_r, E. rewrite firstn_all2 by lia. reflexivity.
    - cbn [constructed map fst length].
      assert (E' : slots (reg_construct a u r) = map Some (firstn (length l + m) (l ++ [a])) ++ repeat None (m - 1))
        by (cbn [reg_construct slots]; rewrite E; apply reg_add_shape).
      destruct m as [|m].
      + assert (Ef : forall t, firstn (length l + 0) (l ++ t) = l) by (intro t; rewrite Nat.add_0_r, firstn_app, Nat.sub_diag, firstn_all; cbn [firstn]; apply app_nil_r).
        rewrite Ef in E'. rewrite (IH l 0 E'). rewrite !Ef. reflexivity.
      + rewrite (IH (firstn (length l + S m) (l ++ [a])) (S m - 1) E'). rewrite (firstn_all2 (n := length l + S m)) by (rewrite app_length; cbn [length]; lia).
        rewrite <- app_assoc. cbn [app]. rewrite app_length. cbn [length].
        replace (length l + 1 + (S m - 1)) with (length l + S m) by lia. replace (S m - 1 - length (constructed h)) with (S m - S (length (constructed h))) by lia. reflexivity.
    - cbn [constructed]. apply IH. exact E. }
  intros n h r H. rewrite (G _ _ _ H [] n eq_refl). reflexivity.
Qed.

(** The objects alive: an address holds the last object constructed there, if it
    was not destroyed since. *)
Definition alive1 (a : nat) (v : option Z) (o : regop) : option Z :=
  match o with RNew b u => if a =? b then Some u else v | RDelete b => if a =? b then None else v end.
Definition alive (h : list regop) (a : nat) : option Z := fold_left (alive1 a) h None.
Lemma alive_live : forall n h r, reg_hist (registry_new n) h r -> forall a, live r a = alive h a.
Proof.
  assert (G : forall r h r', reg_hist r h r' -> forall a, live r' a = fold_left (alive1 a) h (live r a)).
  { intros r h r' H. induction H as [r|r b u h r' Hl Hh IH|r b h r' Hl Hh IH]; intro a; cbn [fold_left]; [reflexivity| |]; rewrite IH; reflexivity. }
  intros n h r H a. rewrite (G _ _ _ H). reflexivity.
Qed.

(** getInstance() in terms of the program's own actions. *)
Fixpoint first_of (l : list nat) (al : nat -> option Z) (u : Z) : lookup :=
  match l with
  | [] => NotFound
  | a :: l => match al a with None => ReadsDead | Some v => if (v =? u)%Z then Found a else first_of l al u end
  end.
Lemma reg_get_shape : forall l m lv al u, (forall a, lv a = al a) -> reg_get (map Some l ++ repeat None m) lv u = first_of l al u.
Proof.
  induction l as [|a l IH]; intros m lv al u E; cbn [map app reg_get first_of].
  - induction m as [|m IHm]; [reflexivity|exact IHm].
  - rewrite E. destruct (al a) as [v|]; [|reflexivity]. destruct (v =? u)%Z; [reflexivity|]. apply IH. exact E.
Qed.
Lemma get_exact : forall n h r u, reg_hist (registry_new n) h r -> get_instance r u = first_of (firstn n (map fst (constructed h))) (alive h) u.
Proof. intros n h r u H. unfold get_instance. rewrite (C66_stm32_table n h r H). apply reg_get_shape. apply (alive_live n h r H). Qed.

(** As long as nothing is destroyed and at most N objects are constructed,
    getInstance(u) returns the first one constructed for u, and NULL if there is
    none. *)
Definition only_new (h : list regop) : Prop := forall o, In o h -> match o with RNew _ _ => True | RDelete _ => False end.
Lemma alive_only_new : forall n h r, reg_hist (registry_new n) h r -> only_new h -> forall a u, In (a, u) (constructed h) -> alive h a = Some u.
Proof.
  assert (G : forall r h r', reg_hist r h r' -> only_new h -> (forall a v, live r a = Some v -> live r' a = Some v) /\
    (forall a u, In (a, u) (constructed h) -> live r' a = Some u)).
  { intros r h r' H. induction H as [r|r b u h r' Hl Hh IH|r b h r' Hl Hh IH]; intro Ho.
    - split; [auto|intros a u []].
    - destruct IH as [I1 I2]; [intros o Hi; apply Ho; right; exact Hi|]. cbn [constructed]. split.
      + intros a v Ha. apply I1. cbn [reg_construct live]. destruct (Nat.eqb_spec a b) as [->|]; [congruence|exact Ha].
      + intros a v [E|Hi]; [|apply I2; exact Hi]. apply pair_equal_spec in E as [<- <-]. apply I1. cbn [reg_construct live]. rewrite Nat.eqb_refl. reflexivity.
    - contradiction (Ho (RDelete b)). left; reflexivity. }
  intros n h r H Ho a u Hi. rewrite <- (alive_live n h r H a). apply (proj2 (G _ _ _ H Ho)). exact Hi.
Qed.
Theorem C66_stm32_finds : forall n h r u, reg_hist (registry_new n) h r -> only_new h -> length (constructed h) <= n ->
  (forall l1 a l2, constructed h = l1 ++ (a, u) :: l2 -> ~ In u (map snd l1) -> get_instance r u = Found a /\ live r a = Some u) /\
  (~ In u (map snd (constructed h)) -> get_instance r u = NotFound).
Proof.
  intros n h r u H Ho Hn. rewrite (get_exact n h r u H). rewrite firstn_all2 by (rewrite map_length; exact Hn).
  pose proof (alive_only_new n h r H Ho) as A.
  assert (W : forall l1 rest, (forall p, In p l1 -> In p (constructed h)) -> ~ In u (map snd l1) ->
    first_of (map fst l1 ++ rest) (alive h) u = first_of rest (alive h) u).
  { induction l1 as [|[b v] l1 IH]; intros rest Hin Hu; [reflexivity|]. cbn [map fst app first_of].
    rewrite (A b v) by (apply Hin; left; reflexivity). cbn [map snd In] in Hu. replace (v =? u)%Z with false by lia.
    apply IH; [intros p Hp; apply Hin; right; exact Hp|tauto]. }
  split.
  - intros l1 a l2 E Hu. rewrite E, map_app. rewrite W; [|intros p Hp; rewrite E; apply in_or_app; left; exact Hp|exact Hu].
    cbn [map fst first_of]. assert (Ea : alive h a = Some u) by (apply A; rewrite E; apply in_elt). rewrite Ea, Z.eqb_refl.
    split; [reflexivity|]. rewrite (alive_live n h r H). exact Ea.
  - intro Hu. rewrite <- (app_nil_r (map fst (constructed h))). rewrite W; [reflexivity|auto|exact Hu].
Qed.
Example C66_stm32_case : let h := [RNew 10 2; RNew 20 3; RNew 30 3] in exists r, reg_hist (registry_new 4) h r /\ only_new h /\ get_instance r 3 = Found 20.
Proof.
  cbv zeta. eexists. split; [|split].
  - do 3 (apply rh_new; [reflexivity|]). apply rh_nil.
  - intros o [<-|[<-|[<-|[]]]]; exact I.
  - reflexivity.
Qed.
(** An object destroyed and not replaced stays in the table: a later
    getInstance() that gets as far reads a dead object. *)
Theorem C66_stm32_dead_refuted : forall n h r u l1 a l2, reg_hist (registry_new n) h r ->
  firstn n (map fst (constructed h)) = l1 ++ a :: l2 -> (forall b, In b l1 -> exists v, alive h b = Some v /\ v <> u) -> alive h a = None ->
  get_instance r u = ReadsDead.
Proof.
  intros n h r u l1 a l2 H E Hb Ha. rewrite (get_exact n h r u H), E. clear E H. induction l1 as [|b l1 IH]; cbn [app first_of].
  - rewrite Ha. reflexivity.
  - destruct (Hb b (or_introl eq_refl)) as (v & -> & Hv). replace (v =? u)%Z with false by lia. apply IH. intros c Hc. apply Hb. right. exact Hc.
Qed.
Example C66_stm32_dead_case : exists r, reg_hist (registry_new 4) [RNew 10 2; RDelete 10; RNew 20 3] r /\ live r 20 = Some 3%Z /\ get_instance r 3 = ReadsDead.
Proof.
  eexists. split; [|split].
  - apply rh_new; [reflexivity|]. apply rh_delete; [cbn; discriminate|]. apply rh_new; [reflexivity|]. apply rh_nil.
  - reflexivity.
  - reflexivity.
Qed.
(** After N constructions no further object is ever found, destroyed ones or
    not. *)
Theorem C66_stm32_full_refuted : forall n h r u a, reg_hist (registry_new n) h r -> n <= length (constructed h) -> live r a = None ->
  (forall b, In b (firstn n (map fst (constructed h))) -> exists v, alive h b = Some v /\ v <> u) ->
  live (reg_construct a u r) a = Some u /\ get_instance (reg_construct a u r) u = NotFound.
Proof.
  intros n h r u a H Hn Ha Hb. split; [cbn [reg_construct live]; rewrite Nat.eqb_refl; reflexivity|].
  assert (Es : slots (reg_construct a u r) = slots r).
  { cbn [reg_construct slots]. rewrite (C66_stm32_table n h r H). rewrite reg_add_shape.
    replace (n - length (constructed h)) with 0 by lia. cbn [Nat.sub repeat]. rewrite !app_nil_r. f_equal. rewrite Nat.add_0_r, firstn_app, Nat.sub_diag, firstn_all.
    cbn [firstn]. apply app_nil_r. }
  unfold get_instance. rewrite Es. rewrite (C66_stm32_table n h r H).
  rewrite (reg_get_shape _ _ _ (fun b => if b =? a then Some u else alive h b)).
  2: { intro b. cbn [reg_construct live]. destruct (b =? a); [reflexivity|apply (alive_live n h r H)]. }
  revert Hb. generalize (firstn n (map fst (constructed h))). intro l. induction l as [|b l IH]; intro Hb; cbn [first_of]; [reflexivity|].
  destruct (Hb b (or_introl eq_refl)) as (v & Ev & Hv). destruct (Nat.eqb_spec b a) as [->|].
  - rewrite (alive_live n h r H) in Ha. congruence.
  - rewrite Ev. replace (v =? u)%Z with false by lia. apply IH. intros c Hc. apply Hb. right. exact Hc.
Qed.
Example C66_stm32_full_case : exists r, reg_hist (registry_new 1) [RNew 10 2] r /\ get_instance (reg_construct 20 3 r) 3 = NotFound.
Proof. eexists. split; [apply rh_new; [reflexivity|apply rh_nil]|reflexivity]. Qed.

(** ** C67: the transmit interrupt *)

(** open() and close() with libraries that keep, or do not keep, the interrupt
    enable bits. *)
Definition keeps (H : hal) (h : list uop) : Prop :=
  (init_keeps H = true \/ forall ok, ~ In (UOpenPort ok) h) /\ (deinit_keeps H = true \/ ~ In UClosePort h).

(** From the first open() on, between calls: bytes waiting means the interrupt is
    enabled; the port may have been used for reading before. *)
Lemma u_steps_busy : forall H h u u', u_steps H h u = Ok u' -> keeps H h -> uclk u = true -> busy_ok u -> busy_ok u' /\ uclk u' = true.
Proof.
  intros H h. induction h as [|o h IH]; intros u u' Hs Hk Hc Hb; cbn [u_steps] in Hs.
  - assert (u = u') by congruence. subst. auto.
  - destruct (u_step H o u) as [u1|] eqn:E; cbn [bind] in Hs; [|discriminate].
    assert (Hk' : keeps H h).
    { destruct Hk as [K1 K2]. split; [destruct K1 as [K1|K1]; [left; exact K1|right; intros ok Hi; apply (K1 ok); right; exact Hi]|
        destruct K2 as [K2|K2]; [left; exact K2|right; intro Hi; apply K2; right; exact Hi]]. }
    assert (N : busy_ok u1 /\ uclk u1 = true).
    { destruct o as [c sch|ok|]; cbn [u_step] in E.
      - destruct (u_exec c _) as [[out v]|] eqn:Ee; cbn [bind] in E; [|discriminate].
        destruct (sim_clk _ _ _ _ _ _ _ (u_exec_sim c _) Ee) as [Cv _]. cbn [uclk] in Cv.
        apply u_exec_busy in Ee; [|exact Hc|right; exact Hb].
        destruct (handle_all _ _ _) as [[[s t] ev]|] eqn:Eh; cbn [bind] in E; [|discriminate].
        match type of E with Ok ?w = _ => assert (Eu : u1 = w) by congruence end. subst u1. cbn [uclk]. split; [|congruence].
        unfold busy_ok, txn. cbn [usys ser utxe]. eapply handle_all_busy; [exact Eh|exact Ee].
      - assert (Eu : u1 = u_open_port H ok u) by congruence. subst u1. split; [|reflexivity]. unfold busy_ok, txn, u_open_port. cbn [usys utxe]. intro Hp.
        rewrite Hc, (Hb Hp). destruct Hk as [[->|K] _]; [reflexivity|]. contradiction (K ok). left; reflexivity.
      - assert (Eu : u1 = u_close_port H u) by congruence. subst u1. split; [|exact Hc]. unfold busy_ok, txn, u_close_port. cbn [usys utxe]. intro Hp.
        rewrite (Hb Hp). destruct Hk as [_ [->|K]]; [reflexivity|]. contradiction K. left; reflexivity. }
    destruct N as [N1 N2]. eapply IH; eassumption.
Qed.
Theorem C67_stm32 : forall H rbuf wbuf ok h u, u_steps H (UOpenPort ok :: h) (uart_new rbuf wbuf) = Ok u -> keeps H h ->
  0 < avail (lr (stx (ser (usys u)))) -> utxe u = true.
Proof.
  intros H rbuf wbuf ok h u Hs Hk. cbn [u_steps u_step bind] in Hs. eapply u_steps_busy; [exact Hs|exact Hk|reflexivity|].
  unfold busy_ok, txn. cbn. lia.
Qed.
Lemma C67_full : forall H rbuf wbuf ok h u, u_steps H (UOpenPort ok :: h) (uart_new rbuf wbuf) = Ok u -> keeps H h -> busy_ok u /\ uclk u = true.
Proof.
  intros H rbuf wbuf ok h u Hs Hk. cbn [u_steps u_step bind] in Hs. eapply u_steps_busy; [exact Hs|exact Hk|reflexivity|].
  unfold busy_ok, txn. cbn. lia.
Qed.

(** The calls return what those of the serial port return, with interrupts at two
    more points: all that Serial.v's theorems say holds for this port. *)
Theorem C67_stm32_calls : forall c u, match u_exec c u, s_exec_hook c (usys u) with
  | Ok (out, u'), Ok (out', y') => out = out' /\ usys u' = y' | UB e, UB f => e = f | _, _ => False end.
Proof.
  intros c u. pose proof (u_exec_sim c u) as K. destruct (u_exec c u) as [[a u']|], (s_exec_hook c (usys u)) as [[b s]|]; cbn [sim] in K; try contradiction; [|exact K]. tauto.
Qed.

(** Draining: with the transmitter accepting, each interrupt sends the oldest
    byte, the interrupt stays enabled until the buffer is empty and is then
    disabled. *)
Theorem C67_stm32_drains : forall s q t, serial_is s q t -> forall n, n <= length t ->
  exists s', handle_all s true (repeat (Transfer None true) n) = Ok (s', if (n =? length t) && (0 <? n) then false else true, map EvSent (firstn n t)) /\
    serial_is s' q (skipn n t).
Proof.
  intros s q t Hs n. revert s t Hs. induction n as [|n IH]; intros s t Hs Hn.
  - exists s. cbn [repeat handle_all firstn map skipn]. rewrite andb_false_r. auto.
  - destruct t as [|c t]; [cbn in Hn; lia|]. destruct Hs as [Hr Ht]. destruct (lring_is_avail _ _ Ht) as [Ha _].
    assert (T : exists tx, lr_pull (stx s) = Ok (c, tx) /\ lring_is tx t) by (destruct (lr_pull_is (stx s) c t Ht) as (tx & E1 & E2 & _); eauto).
    destruct T as (tx & Ep & Hx).
    assert (Er : ring_read (lr (stx s)) = Ok c) by (destruct Ht as (W & C & _); eapply ring_read_spec; [apply W|exact C]).
    assert (Et : transfer s (Transfer None true) = Ok (mkSerial (srx s) tx, [EvSent c])).
    { unfold transfer. cbn [bind]. rewrite Ha. cbn [length Nat.ltb Nat.leb]. rewrite Er. cbn [bind]. rewrite Ep. reflexivity. }
    cbn [repeat handle_all]. unfold handle_interrupt at 1. rewrite Et. cbn [bind stx].
    assert (Hs1 : serial_is (mkSerial (srx s) tx) q t) by (split; assumption). destruct (lring_is_avail _ _ Hx) as [Hax _]. rewrite Hax.
    destruct t as [|c2 t].
    + cbn [length] in Hn. assert (n = 0) by lia. subst n. cbn [length Nat.eqb repeat handle_all bind firstn map skipn app]. exists (mkSerial (srx s) tx). auto.
    + cbn [length Nat.eqb]. destruct (IH (mkSerial (srx s) tx) (c2 :: t) Hs1) as (s' & E & Hs'); [cbn [length] in *; lia|].
      rewrite E. cbn [bind]. exists s'. split; [|exact Hs']. f_equal. f_equal. f_equal.
      cbn [length Nat.eqb Nat.ltb Nat.leb]. rewrite andb_true_r. destruct n as [|n]; [reflexivity|]. cbn [Nat.ltb Nat.leb]. rewrite andb_true_r. reflexivity.
Qed.

(** Bytes written before the first open(), and bytes waiting over a close() if the
    library clears the register, stay behind with the interrupt disabled. *)
Theorem C67_stm32_before_refuted : forall H rbuf wbuf x, 1 <= length wbuf -> exists u,
  u_steps H [UCall (SWriteOne x) []; UOpenPort true] (uart_new rbuf wbuf) = Ok u /\ avail (lr (stx (ser (usys u)))) = 1 /\ utxe u = false /\ uopen u = true.
Proof.
  intros H rbuf wbuf x Hw. pose proof (lring_new_is wbuf) as Hn. cbn [u_steps u_step]. cbn [uart_new usys ser uopen utxe uclk serial_new].
  destruct (lr_push_is (lring_new wbuf) [] x Hn) as (tx & Ep & Ht & _); [cbn; lia|]. destruct (lring_is_avail _ _ Ht) as [Ha _].
  cbn [u_exec]. unfold u_write, u_copy, u_point. cbn [usys sched bind ser stx srx]. unfold serial_new. cbn [usys sched bind ser stx srx]. rewrite Ep. cbn [bind on_sys usys ser stx srx sched slog utxe uclk uopen].
  unfold start_transmit, u_point. cbn [usys sched bind ser stx srx utxe uclk uopen slog concat handle_all].
  eexists. split; [reflexivity|]. cbn -[avail lr]. rewrite Ha. auto.
Qed.
Theorem C67_stm32_close_refuted : forall rbuf wbuf x ik, 1 <= length wbuf -> exists u,
  u_steps (mkHal ik false) [UOpenPort true; UCall (SWriteOne x) []; UClosePort; UOpenPort true] (uart_new rbuf wbuf) = Ok u /\
  avail (lr (stx (ser (usys u)))) = 1 /\ utxe u = false /\ uopen u = true.
Proof.
  intros rbuf wbuf x ik Hw. pose proof (lring_new_is wbuf) as Hn. cbn [u_steps u_step]. cbn [uart_new u_open_port usys ser uopen utxe uclk serial_new bind].
  destruct (lr_push_is (lring_new wbuf) [] x Hn) as (tx & Ep & Ht & _); [cbn; lia|]. destruct (lring_is_avail _ _ Ht) as [Ha _].
  cbn [u_exec]. unfold u_write, u_copy, u_point. cbn [usys sched bind ser stx srx]. unfold serial_new. cbn [usys sched bind ser stx srx]. rewrite Ep. cbn [bind on_sys usys ser stx srx sched slog utxe uclk uopen].
  unfold start_transmit, u_point. cbn [usys sched bind ser stx srx utxe uclk uopen slog concat handle_all].
  eexists. split; [reflexivity|]. cbn -[avail lr andb]. rewrite Ha, andb_false_r. auto.
Qed.
(** A session: the interrupt sends one byte while the next is being written, and
    is disabled by it just before startTransmit() enables it again. *)
Example C67_stm32_case : let b := repeat NUL 8 in
  match u_steps (mkHal true true) [UOpenPort true; UCall (SWriteMany (bs "abc") 3) [[]; []; [Transfer None true; Transfer None true]; []; [Transfer None true]]] (uart_new b b) with
  | Ok u => (avail (lr (stx (ser (usys u)))), utxe u) = (1, true)
  | UB _ => False
  end.
Proof. vm_compute. reflexivity. Qed.

(** ** Assumptions *)
Print Assumptions C64_stm32_accepts.
Print Assumptions C63_stm32_rate.
Print Assumptions C63_stm32_refuted.
Print Assumptions C66_stm32_table.
Print Assumptions C66_stm32_finds.
Print Assumptions C66_stm32_dead_refuted.
Print Assumptions C66_stm32_full_refuted.
Print Assumptions C67_stm32.
Print Assumptions C67_stm32_calls.
Print Assumptions C67_stm32_drains.
Print Assumptions C67_stm32_before_refuted.
Print Assumptions C67_stm32_close_refuted.
