(** Lemmas about the STM32 port: its calls are those of Serial.v, and the
    transmit interrupt stays enabled while there is something to send. *)
From Coq Require Import Ascii ZArith List Bool Arith Lia.
From Verif Require Import Base QueueSpec LineSpec SerialSpec Ring LineRing Serial SerialProofs LineRingProofs RingProofs Stm32.
Import ListNotations.

(** ** The calls are those of the serial port *)

Definition sim {A} (k o : bool) (x : res (A * uart)) (y : res (A * sys)) : Prop :=
  match x, y with
  | Ok (a, u), Ok (b, s) => a = b /\ usys u = s /\ uclk u = k /\ uopen u = o
  | UB e, UB f => e = f
  | _, _ => False
  end.
Definition sim0 (k o : bool) (x : res uart) (y : res sys) : Prop :=
  match x, y with
  | Ok u, Ok s => usys u = s /\ uclk u = k /\ uopen u = o
  | UB e, UB f => e = f
  | _, _ => False
  end.
Lemma sim_bind : forall A B k o (x : res (A * uart)) y (f : A * uart -> res (B * uart)) g, sim k o x y ->
  (forall a u, uclk u = k -> uopen u = o -> sim k o (f (a, u)) (g (a, usys u))) -> sim k o (bind x f) (bind y g).
Proof. intros A B k o [[a u]|e] [[b s]|e'] f g H Hf; cbn [sim bind] in *; try contradiction; [|exact H]. destruct H as (<- & <- & Hk & Ho). auto. Qed.
Lemma sim0_bind : forall B k o (x : res uart) y (f : uart -> res (B * uart)) g, sim0 k o x y ->
  (forall u, uclk u = k -> uopen u = o -> sim k o (f u) (g (usys u))) -> sim k o (bind x f) (bind y g).
Proof. intros B k o [u|e] [s|e'] f g H Hf; cbn [sim sim0 bind] in *; try contradiction; [|exact H]. destruct H as (<- & Hk & Ho). auto. Qed.
Lemma sim0_bind0 : forall k o (x : res uart) y (f : uart -> res uart) g, sim0 k o x y ->
  (forall u, uclk u = k -> uopen u = o -> sim0 k o (f u) (g (usys u))) -> sim0 k o (bind x f) (bind y g).
Proof. intros k o [u|e] [s|e'] f g H Hf; cbn [sim0 bind] in *; try contradiction; [|exact H]. destruct H as (<- & Hk & Ho). auto. Qed.

Lemma handle_all_run : forall is s t, match handle_all s t is, run_isrs s is with
  | Ok (s1, _, e1), Ok (s2, e2) => s1 = s2 /\ e1 = e2 | UB e, UB f => e = f | _, _ => False end.
Proof.
  induction is as [|i is IH]; intros s t; cbn [handle_all run_isrs]; [auto|]. unfold handle_interrupt.
  destruct (transfer s i) as [[s1 e1]|e]; cbn [bind]; [|reflexivity].
  specialize (IH s1 (if avail (lr (stx s1)) =? 0 then false else t)).
  destruct (handle_all s1 _ is) as [[[s2 t2] e2]|e], (run_isrs s1 is) as [[s3 e3]|e']; cbn [bind]; try contradiction; [|exact IH].
  destruct IH as [-> ->]. auto.
Qed.
Lemma u_point_sim : forall u, sim0 (uclk u) (uopen u) (u_point u) (isr_point (usys u)).
Proof.
  intro u. unfold u_point, isr_point. destruct (sched (usys u)) as [|is rest]; [cbn; auto|].
  pose proof (handle_all_run is (ser (usys u)) (utxe u)) as E.
  destruct (handle_all _ _ is) as [[[s t] ev]|e], (run_isrs _ is) as [[s' ev']|e']; cbn [bind sim0]; try contradiction; [|exact E].
  destruct E as [-> ->]. cbn [usys uclk uopen]. auto.
Qed.
Lemma u_bytes_sim : forall u, sim (uclk u) (uopen u) (u_bytes_available u) (s_bytes_available (usys u)).
Proof. intro u. unfold u_bytes_available, s_bytes_available. apply sim0_bind; [apply u_point_sim|]. intros v Hk Ho. cbn. auto. Qed.
Lemma u_space_sim : forall u, sim (uclk u) (uopen u) (u_space_available u) (s_space_available (usys u)).
Proof. intro u. unfold u_space_available, s_space_available. apply sim0_bind; [apply u_point_sim|]. intros v Hk Ho. cbn. auto. Qed.
Lemma u_read_sim : forall u, sim (uclk u) (uopen u) (u_read u) (s_read (usys u)).
Proof.
  intro u. unfold u_read, s_read. apply sim0_bind; [apply u_point_sim|]. intros v Hk Ho. destruct (lr_pull (srx (ser (usys v)))) as [[c rx]|e]; cbn [bind sim]; [|reflexivity].
  cbn. auto.
Qed.
Lemma u_read_loop_sim : forall n u, sim (uclk u) (uopen u) (u_read_loop n u) (s_read_loop n (usys u)).
Proof.
  induction n as [|n IH]; intro u; cbn [u_read_loop s_read_loop]; [cbn; auto|]. apply sim_bind; [apply u_read_sim|]. intros c v <- <-.
  apply sim_bind; [apply IH|]. intros cs w Hk Ho. cbn. auto.
Qed.
Lemma u_read_many_sim : forall n u, sim (uclk u) (uopen u) (u_read_many n u) (s_read_many n (usys u)).
Proof.
  intros n u. unfold u_read_many, s_read_many. apply sim_bind; [apply u_bytes_sim|]. intros a v <- <-.
  apply sim_bind; [apply u_read_loop_sim|]. intros cs w Hk Ho. cbn. auto.
Qed.
Lemma u_copy_sim : forall c u, sim0 (uclk u) (uopen u) (u_copy c u) (s_copy c (usys u)).
Proof.
  intros c u. unfold u_copy, s_copy. apply sim0_bind0; [apply u_point_sim|]. intros v Hk Ho. destruct (lr_push (stx (ser (usys v))) c) as [tx|e]; cbn [bind sim0]; [|reflexivity].
  cbn. auto.
Qed.
Lemma u_write_loop_sim : forall n data u, sim0 (uclk u) (uopen u) (u_write_loop n data u) (s_write_loop n data (usys u)).
Proof.
  induction n as [|n IH]; intros data u; cbn [u_write_loop s_write_loop]; [cbn; auto|]. destruct data as [|c data]; [reflexivity|].
  apply sim0_bind0; [apply u_copy_sim|]. intros v <- <-. apply IH.
Qed.
Lemma u_write_str_loop_sim : forall str room u, sim (uclk u) (uopen u) (u_write_str_loop str room u) (s_write_str_loop str room (usys u)).
Proof.
  induction str as [|c str IH]; intros room u; cbn [u_write_str_loop s_write_str_loop]; [reflexivity|]. destruct (aeqb c NUL); [cbn; auto|].
  destruct room as [|room]; [cbn; auto|]. apply sim0_bind; [apply u_copy_sim|]. intros v <- <-. apply sim_bind; [apply IH|]. intros k w Hk Ho. cbn. auto.
Qed.
Lemma u_readline_loop_sim : forall fuel c room u, sim (uclk u) (uopen u) (u_readline_loop fuel c room u) (s_readline_loop fuel c room (usys u)).
Proof.
  induction fuel as [|fuel IH]; intros c room u; cbn [u_readline_loop s_readline_loop]; (apply sim_bind; [apply u_bytes_sim|]); intros a v <- <-;
    (destruct ((0 <? a) && negb (aeqb c LF)); [|cbn; auto]); [reflexivity|]. apply sim_bind; [apply u_read_sim|]. intros c' w <- <-.
  destruct room as [|room]; [apply IH|]. apply sim_bind; [apply IH|]. intros cs x Hk Ho. cbn. auto.
Qed.

(** startTransmit() only adds two points at which interrupts may happen. *)
Definition writes (c : scall) : bool := match c with SWriteMany _ _ | SWriteStr _ | SWriteOne _ => true | _ => false end.
Definition s_exec_hook (c : scall) (y : sys) : res (qobs ascii * sys) :=
  let* (out, y1) := s_exec c y in
  if writes c then let* y2 := isr_point y1 in let* y3 := isr_point y2 in Ok (out, y3) else Ok (out, y1).
Lemma start_sim : forall u, sim0 (uclk u) (uopen u) (start_transmit u) (let* y2 := isr_point (usys u) in let* y3 := isr_point y2 in Ok y3).
Proof.
  intro u. unfold start_transmit. apply sim0_bind0; [apply u_point_sim|]. intros v <- <-. apply sim0_bind0; [apply u_point_sim|]. intros w Hk Ho.
  cbn. auto.
Qed.
Lemma bind_bind : forall A B C (x : res A) (f : A -> res B) (g : B -> res C), bind (bind x f) g = bind x (fun a => bind (f a) g).
Proof. intros A B C [a|e] f g; reflexivity. Qed.
Lemma start_sim' : forall A (a : A) u, sim (uclk u) (uopen u) (let* u3 := start_transmit u in Ok (a, u3)) (let* y2 := isr_point (usys u) in let* y3 := isr_point y2 in Ok (a, y3)).
Proof.
  intros A a u. unfold start_transmit. rewrite bind_bind. apply sim0_bind; [apply u_point_sim|]. intros v <- <-. rewrite bind_bind.
  apply sim0_bind; [apply u_point_sim|]. intros w Hk Ho. cbn. auto.
Qed.
Lemma u_exec_sim : forall c u, sim (uclk u) (uopen u) (u_exec c u) (s_exec_hook c (usys u)).
Proof.
  intros c u. unfold s_exec_hook. destruct c as [| | |n| |n| | |data n|str|x| |]; cbn [u_exec s_exec writes].
  - rewrite bind_bind. apply sim0_bind; [apply u_point_sim|]. intros v Hk Ho. cbn. auto.
  - rewrite bind_bind. apply sim_bind; [apply u_bytes_sim|]. intros a v Hk Ho. cbn. auto.
  - rewrite bind_bind. apply sim_bind; [apply u_space_sim|]. intros a v Hk Ho. cbn. auto.
  - rewrite bind_bind. apply sim_bind; [apply u_read_many_sim|]. intros [cs k] v Hk Ho. cbn. auto.
  - rewrite bind_bind. apply sim_bind; [apply u_read_sim|]. intros a v Hk Ho. cbn. auto.
  - unfold u_readline, s_readline. destruct n as [|m]; [cbn; auto|]. rewrite bind_bind. apply sim_bind; [apply u_readline_loop_sim|]. intros a v Hk Ho. cbn. auto.
  - rewrite bind_bind. unfold u_can_read_line, s_can_read_line. rewrite !bind_bind. apply sim0_bind; [apply u_point_sim|]. intros v Hk Ho. cbn. auto.
  - rewrite bind_bind. unfold u_flush, s_flush. rewrite !bind_bind. apply sim0_bind; [apply u_point_sim|]. intros v Hk Ho. cbn. auto.
  - unfold u_write_many, s_write_many. rewrite !bind_bind. apply sim_bind; [apply u_space_sim|]. intros a v <- <-. rewrite !bind_bind.
    apply sim0_bind; [apply u_write_loop_sim|]. intros w <- <-. cbn [bind].
    pose proof (start_sim' _ (OCount (if a <? n then a else n) : qobs ascii) w) as K. destruct (start_transmit w); exact K.
  - unfold u_write_str, s_write_str. rewrite !bind_bind. apply sim_bind; [apply u_space_sim|]. intros a v <- <-. rewrite !bind_bind.
    apply sim_bind; [apply u_write_str_loop_sim|]. intros k w <- <-. cbn [bind].
    pose proof (start_sim' _ (OCount k : qobs ascii) w) as K. destruct (start_transmit w); exact K.
  - unfold u_write, s_write. rewrite !bind_bind. apply sim0_bind; [apply u_copy_sim|]. intros w <- <-. cbn [bind]. apply start_sim'.
  - cbn. auto.
  - cbn. auto.
Qed.

(** ** The interrupt enable bit *)

Definition txn (u : uart) : nat := avail (lr (stx (ser (usys u)))).
Definition busy_ok (u : uart) : Prop := 0 < txn u -> utxe u = true.

Lemma handle_busy : forall s t i s' t' ev, handle_interrupt s t i = Ok (s', t', ev) ->
  (0 < avail (lr (stx s)) -> t = true) -> (0 < avail (lr (stx s')) -> t' = true).
Proof.
  intros s t i s' t' ev H Hb Hp. unfold handle_interrupt in H. destruct (transfer s i) as [[s1 e1]|e] eqn:E; cbn [bind] in H; [|discriminate].
  assert (E1 : s1 = s') by congruence. assert (E2 : t' = if avail (lr (stx s1)) =? 0 then false else t) by congruence. subst s1 t'.
  destruct (Nat.eqb_spec (avail (lr (stx s'))) 0) as [|]; [lia|]. apply Hb.
  unfold transfer in E. destruct i as [raw acc].
  assert (G : forall rx ev1, (if 0 <? avail (lr (stx s)) then let* c := ring_read (lr (stx s)) in
    if acc then let* (_, tx) := lr_pull (stx s) in Ok (mkSerial rx tx, ev1 ++ [EvSent c]) else Ok (mkSerial rx (stx s), ev1)
    else Ok (mkSerial rx (stx s), ev1)) = Ok (s', e1) -> 0 < avail (lr (stx s))).
  { intros rx ev1 K. destruct (Nat.ltb_spec 0 (avail (lr (stx s)))) as [L|L]; [exact L|].
    assert (Es : s' = mkSerial rx (stx s)) by congruence. subst s'. cbn [stx] in Hp. exact Hp. }
  destruct raw as [d|]; [destruct (negb (ring_is_full (lr (srx s)))); [destruct (lr_push (srx s) d) as [rx|]; cbn [bind] in E; [|discriminate]|]|];
    cbn [bind] in E; eapply G; exact E.
Qed.
Lemma handle_all_busy : forall is s t s' t' ev, handle_all s t is = Ok (s', t', ev) ->
  (0 < avail (lr (stx s)) -> t = true) -> (0 < avail (lr (stx s')) -> t' = true).
Proof.
  induction is as [|i is IH]; intros s t s' t' ev H Hb; cbn [handle_all] in H.
  - assert (s = s') by congruence. assert (t = t') by congruence. subst. exact Hb.
  - destruct (handle_interrupt s t i) as [[[s1 t1] e1]|] eqn:E; cbn [bind] in H; [|discriminate].
    destruct (handle_all s1 t1 is) as [[[s2 t2] e2]|] eqn:E2; cbn [bind] in H; [|discriminate].
    assert (s2 = s') by congruence. assert (t2 = t') by congruence. subst. eapply IH; [exact E2|]. eapply handle_busy; eassumption.
Qed.
Lemma u_point_busy : forall u u', u_point u = Ok u' -> busy_ok u -> busy_ok u'.
Proof.
  intros u u' H Hb. unfold u_point in H. destruct (sched (usys u)) as [|is rest]; [assert (u = u') by congruence; subst; exact Hb|].
  destruct (handle_all _ _ is) as [[[s t] ev]|] eqn:E; cbn [bind] in H; [|discriminate].
  assert (Eu : u' = mkUart (mkSys s rest (slog (usys u) ++ ev)) t (uclk u) (uopen u)) by congruence. subst u'.
  unfold busy_ok, txn. cbn [usys ser utxe]. eapply handle_all_busy; [exact E|exact Hb].
Qed.
Ltac unbind H := match type of H with
  | bind (u_point ?u) _ = Ok _ => let v := fresh "v" in let E := fresh "E" in destruct (u_point u) as [v|] eqn:E; cbn [bind] in H; [|discriminate]
  | bind ?x _ = Ok _ => let a := fresh "a" in let v := fresh "v" in let E := fresh "E" in destruct x as [[a v]|] eqn:E; cbn [bind] in H; [|discriminate] end.
Lemma u_bytes_busy : forall u a u', u_bytes_available u = Ok (a, u') -> busy_ok u -> busy_ok u'.
Proof. intros u a u' H Hb. unfold u_bytes_available in H. unbind H. assert (v = u') by congruence. subst. eapply u_point_busy; eassumption. Qed.
Lemma u_space_busy : forall u a u', u_space_available u = Ok (a, u') -> busy_ok u -> busy_ok u'.
Proof. intros u a u' H Hb. unfold u_space_available in H. unbind H. assert (v = u') by congruence. subst. eapply u_point_busy; eassumption. Qed.
Lemma u_read_busy : forall u a u', u_read u = Ok (a, u') -> busy_ok u -> busy_ok u'.
Proof.
  intros u a u' H Hb. unfold u_read in H. unbind H. apply u_point_busy in E; [|exact Hb]. destruct (lr_pull _) as [[c rx]|]; cbn [bind] in H; [|discriminate].
  match type of H with Ok (_, ?w) = _ => assert (Eu : u' = w) by congruence end. subst u'. exact E.
Qed.
Lemma u_read_loop_busy : forall n u a u', u_read_loop n u = Ok (a, u') -> busy_ok u -> busy_ok u'.
Proof.
  induction n as [|n IH]; intros u a u' H Hb; cbn [u_read_loop] in H; [assert (u = u') by congruence; subst; exact Hb|].
  unbind H. unbind H. assert (v0 = u') by congruence. subst. eapply IH; [eassumption|]. eapply u_read_busy; eassumption.
Qed.
Lemma u_readline_loop_busy : forall fuel c room u a u', u_readline_loop fuel c room u = Ok (a, u') -> busy_ok u -> busy_ok u'.
Proof.
  induction fuel as [|fuel IH]; intros c room u a u' H Hb; cbn [u_readline_loop] in H; unbind H; (apply u_bytes_busy in E; [|exact Hb]);
    (destruct ((0 <? a0) && negb (aeqb c LF)); [|assert (v = u') by congruence; subst; exact E]); [discriminate|].
  unbind H. apply u_read_busy in E0; [|exact E]. destruct room as [|room]; [eapply IH; eassumption|].
  unbind H. assert (v1 = u') by congruence. subst. eapply IH; eassumption.
Qed.
Lemma start_busy : forall u u', start_transmit u = Ok u' -> uclk u = true -> busy_ok u'.
Proof.
  intros u u' H Hc. unfold start_transmit in H. pose proof (u_point_sim u) as S1. unbind H. pose proof (u_point_sim v) as S2. unbind H.
  destruct (isr_point (usys u)); [|contradiction]. destruct (isr_point (usys v)); [|contradiction]. cbn [sim0] in S1, S2.
  assert (Ec : uclk v0 = true) by (destruct S1 as (_ & S1 & _), S2 as (_ & S2 & _); congruence). rewrite Ec in H.
  match type of H with Ok ?w = _ => assert (Eu : u' = w) by congruence end. subst u'. intros _. reflexivity.
Qed.
Lemma sim_clk : forall A k o (x : res (A * uart)) y a u, sim k o x y -> x = Ok (a, u) -> uclk u = k /\ uopen u = o.
Proof. intros A k o x y a u H ->. destruct y as [[b s]|]; [|contradiction]. cbn [sim] in H. tauto. Qed.
Lemma sim0_clk : forall k o x y u, sim0 k o x y -> x = Ok u -> uclk u = k /\ uopen u = o.
Proof. intros k o x y u H ->. destruct y as [s|]; [|contradiction]. cbn [sim0] in H. tauto. Qed.

(** Every call keeps the rule; a write establishes it. *)
Lemma u_exec_busy : forall c u out u', u_exec c u = Ok (out, u') -> uclk u = true -> (writes c = true \/ busy_ok u) -> busy_ok u'.
Proof.
  intros c u out u' H Hc Hb. destruct c as [| | |n| |n| | |data n|str|x| |]; cbn [u_exec writes] in *.
  all: try (destruct Hb as [Hb|Hb]; [discriminate|]).
  - unbind H. assert (v = u') by congruence. subst. eapply u_point_busy; eassumption.
  - unbind H. assert (v = u') by congruence. subst. eapply u_bytes_busy; eassumption.
  - unbind H. assert (v = u') by congruence. subst. eapply u_space_busy; eassumption.
  - unfold u_read_many in H. rewrite bind_bind in H. unbind H. rewrite bind_bind in H. unbind H. cbn [bind] in H. assert (v0 = u') by congruence. subst.
    eapply u_read_loop_busy; [eassumption|]. eapply u_bytes_busy; eassumption.
  - unbind H. assert (v = u') by congruence. subst. eapply u_read_busy; eassumption.
  - unfold u_readline in H. destruct n as [|m]; [assert (u = u') by congruence; subst; exact Hb|]. unbind H. assert (v = u') by congruence. subst.
    eapply u_readline_loop_busy; eassumption.
  - unfold u_can_read_line in H. rewrite bind_bind in H. unbind H. assert (v = u') by congruence. subst. eapply u_point_busy; eassumption.
  - unfold u_flush in H. rewrite bind_bind in H. unbind H.
    match type of H with Ok (_, ?w) = _ => assert (Eu : u' = w) by congruence end. subst u'. apply u_point_busy in E; [|exact Hb]. exact E.
  - unfold u_write_many in H. rewrite bind_bind in H. unbind H. destruct (sim_clk _ _ _ _ _ _ _ (u_space_sim u) E) as [C1 _].
    destruct (u_write_loop _ data v) as [w|] eqn:E2; cbn [bind] in H; [|discriminate]. destruct (sim0_clk _ _ _ _ _ (u_write_loop_sim _ data v) E2) as [C2 _].
    destruct (start_transmit w) as [x|] eqn:E3; cbn [bind] in H; [|discriminate]. assert (x = u') by congruence. subst. eapply start_busy; [exact E3|congruence].
  - unfold u_write_str in H. rewrite bind_bind in H. unbind H. destruct (sim_clk _ _ _ _ _ _ _ (u_space_sim u) E) as [C1 _].
    destruct (u_write_str_loop str a v) as [[k w]|] eqn:E2; cbn [bind] in H; [|discriminate]. destruct (sim_clk _ _ _ _ _ _ _ (u_write_str_loop_sim str a v) E2) as [C2 _].
    destruct (start_transmit w) as [x|] eqn:E3; cbn [bind] in H; [|discriminate]. assert (x = u') by congruence. subst. eapply start_busy; [exact E3|congruence].
  - unfold u_write in H. rewrite bind_bind in H. destruct (u_copy x u) as [w|] eqn:E2; cbn [bind] in H; [|discriminate].
    destruct (sim0_clk _ _ _ _ _ (u_copy_sim x u) E2) as [C2 _].
    destruct (start_transmit w) as [y|] eqn:E3; cbn [bind] in H; [|discriminate]. assert (y = u') by congruence. subst. eapply start_busy; [exact E3|congruence].
  - assert (u = u') by congruence. subst. exact Hb.
  - assert (u = u') by congruence. subst. exact Hb.
Qed.
