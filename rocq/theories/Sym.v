(** Symbolic execution of driver code: tactics and the shared leaf solvers. *)
From Coq Require Import String Ascii ZArith List Bool Arith Lia ZifyBool ZifyNat.
From Verif Require Import Base QueueSpec LineSpec SerialSpec Ring RingProofs LineRing LineRingProofs Serial SerialProofs
  SerStep TaskMacros CStr CStrProofs Dev DevProofs SimDev SimProofs.
Import ListNotations.
Local Open Scope nat_scope.
Ltac Zify.zify_post_hook ::= Z.div_mod_to_equations.

(** Simplify the goal only. *)
Ltac gs :=
  cbn [io isopen rbuf wbuf typ host port fl cst wait lbuf lbfill sst rst toWrite toReceive toRead rssi tsk ext
       set_io set_isopen set_rbuf set_wbuf set_typ set_host set_port set_fl set_cst set_wait set_lbuf set_lbfill
       set_sst set_rst set_toWrite set_toReceive set_toRead set_rssi set_tsk set_ext
       on_connect on_reset on_data on_disc on_ip on_line on_lock dev_set_delay
       fConnect fReset fData fDisc fIp fLine fLock fst snd negb andb orb
       at_handle_disconnect at_handle_connect flags_line_read
       set_x_idbuf set_idbuf set_ip set_apn apn ip idbuf maxrx].

Lemma wp_eq : forall A (U : Prop) (e : res A) (Q : A -> Prop), wp U e Q -> wp U e (fun a => Q a /\ e = Ok a).
Proof. intros A U [a|u] Q H; cbn [wp] in *; auto. Qed.

Lemma wp_bind_eq : forall A B (U : Prop) (e : res A) (f : A -> res B) (Q1 : A -> Prop) (Q : B -> Prop),
  wp False e Q1 -> (forall a, e = Ok a -> Q1 a -> wp U (f a) Q) -> wp U (bind e f) Q.
Proof. intros A B U [a|u] f Q1 Q H H1; cbn in *; [apply H1; auto|contradiction]. Qed.

Lemma fill_parsed : forall (L r : bytes) lb, lb = L ++ NUL :: r -> length lb = 61 -> parsed lb.
Proof. intros L r lb -> H. split; [assumption|]. apply in_app_iff. right. left. reflexivity. Qed.

Lemma wp_avail_if : forall A (U : Prop) (b : bool) (x y : res A) (Q : A -> Prop),
  (b = true -> wp U x Q) -> (b = false -> wp U y Q) -> wp U (if b then x else y) Q.
Proof. intros A U [] x y Q H1 H2; auto. Qed.

Ltac sfits :=
  match goal with
  | |- fits _ => first [assumption | (sizes; assumption) | (apply fits_avail; assumption)]
  end.

Ltac lits := first [ assumption | lfree | (cbn; lia) | lia ].

(** One step.  Leaves goals without [wp] alone. *)
Ltac sym1 :=
  match goal with
  | |- wp _ (Ok _) _ => cbn beta iota delta [wp]
  | |- wp _ (bind (Ok _) _) _ => cbn beta iota delta [bind]
  | |- wp _ (bind (if ?b then _ else _) _) _ => let E := fresh "E" in destruct b eqn:E
  | |- wp _ (bind (lstarts ?l ?d) _) _ =>
      rewrite (lstarts_eq l d) by (gs; first [lfree | (match goal with H : parsed _ |- _ => rewrite (proj1 H) end; cbn; lia)]);
      cbn beta iota delta [bind]
  | |- wp _ (bind (lmatch 4 ?l ?d) _) _ =>
      rewrite (lmatch_eq 4 l d) by (gs; first [lfree | (cbn; lia) | (match goal with H : parsed _ |- _ => rewrite (proj1 H) end; cbn; lia)]);
      cbn beta iota delta [bind]
  | |- wp _ (bind _ _) _ => apply wp_bind
  | |- wp _ (d_space _) _ => apply wp_space'; [wfser | gs; let y := fresh "y" in let H := fresh "I" in intros y H ?]
  | |- wp _ (d_avail _) _ => apply wp_avail'; [wfser | gs; let y := fresh "y" in let H := fresh "I" in intros y H ?]
  | |- wp _ (w_str _ _) _ => apply wp_w_str; [wfser | gs; let y := fresh "y" in let H := fresh "W" in intros y H]
  | |- wp _ (w_many _ _) _ => apply wp_w_many; [wfser | gs; let y := fresh "y" in let H := fresh "W" in intros y H]
  | |- wp _ (at_send_command _ _) _ => apply wp_send_command; [wfser | gs; let y := fresh "y" in let H := fresh "W" in intros y H]
  | |- wp _ (w_ptr_len (PStr _) _) _ => apply wp_w_ptr_len; [wfser | gs; let y := fresh "y" in let H := fresh "W" in intros y H]
  | |- wp _ (w_ptr (PStr _) _) _ => unfold w_ptr
  | |- wp _ (if ?b then _ else _) _ => let E := fresh "E" in destruct b eqn:E
  end.

(** Leaf goals of the invariant proofs. *)
Lemma wait_lit : forall w, forallb (fun c => negb (Ascii.eqb c NUL)) w = true -> length w <= 20 -> wait_ok (Some w).
Proof.
  intros w H L. split; [|assumption]. intro Hin. rewrite forallb_forall in H. apply H in Hin. rewrite Ascii.eqb_refl in Hin. discriminate.
Qed.

Lemma id_buf_length : forall s (b : bytes), length b = 24 -> length (firstn 23 s ++ NUL :: skipn (S (length (firstn 23 s))) b) = 24.
Proof. intros s b H. rewrite app_length. cbn [length]. rewrite skipn_length, firstn_length, H. lia. Qed.
Lemma ip_buf_length : forall a (b : bytes), length b = 16 -> length a <= 15 -> length (a ++ NUL :: skipn (S (length a)) b) = 16.
Proof. intros a b H L. rewrite app_length. cbn [length]. rewrite skipn_length, H. lia. Qed.
Lemma in_mid : forall A (x : A) a b, In x (a ++ x :: b).
Proof. intros. apply in_app_iff. right. left. reflexivity. Qed.

Ltac leaf1 :=
  match goal with
  | |- _ /\ _ => split
  | |- serial_wf _ => wfser
  | |- fits _ => sfits
  | |- ring_wf (ring_flush _) => eapply ring_flush_ok; eassumption
  | |- wait_ok None => exact I
  | |- wait_ok (Some _) => first [assumption | (apply wait_lit; [reflexivity | cbn; lia])]
  | H : rsize ?r = rsize _ |- context [rsize ?r] => rewrite H
  | |- line_ok _ => first [assumption | (unfold line_ok in *; dsimp; assumption)
                              | (unfold line_ok; gs; splits; [match goal with H : parsed _ |- _ => apply H end | lia | apply partial_nil])]
  | |- (0 <= u64 _)%Z => apply u64_range
  | |- (0 <= _)%Z => first [assumption | lia]
  | |- (_ < _)%Z => lia
  | |- length (list_set _ _ _) = _ => rewrite list_set_length
  | |- length (firstn 23 _ ++ NUL :: skipn (S (length (firstn 23 _))) _) = 24 => apply id_buf_length
  | |- length (_ ++ NUL :: skipn (S (length _)) _) = 16 => apply ip_buf_length
  | |- In ?x (_ ++ ?x :: _) => apply in_mid
  | |- _ <-> _ => fail 1
  | |- _ => assumption
  end.

Lemma match_wait : forall SS RS X (d : dev SS RS X) w, wait_ok (Some w) -> parsed (lbuf d) ->
  lmatch (clen w) w d = Ok (prefixb w (lbuf d)).
Proof.
  intros SS RS X d w [H1 H2] [H3 H4]. rewrite clen_cbody, cbody_free by assumption.
  rewrite lmatch_eq; [|lia|lia|assumption]. rewrite firstn_all. reflexivity.
Qed.

Lemma prefix_clash : forall a b l, prefixb a l = true -> prefixb b l = true -> prefixb a b || prefixb b a = true.
Proof.
  induction a as [|x a IH]; intros b l Ha Hb; [reflexivity|].
  destruct b as [|y b]; [reflexivity|]. destruct l as [|z l]; [discriminate|].
  cbn [prefixb] in *. apply andb_true_iff in Ha as [Ha1 Ha2]. apply andb_true_iff in Hb as [Hb1 Hb2].
  apply Ascii.eqb_eq in Ha1. apply Ascii.eqb_eq in Hb1. subst. rewrite Ascii.eqb_refl. cbn [andb]. exact (IH _ _ Ha2 Hb2).
Qed.

(** Symbolic execution of the parsing half. *)
Ltac symi :=
  match goal with
  | |- wp _ (bind (lmatch (clen ?w) ?w ?d) _) _ =>
      rewrite (match_wait _ _ _ d w) by (gs; assumption); cbn beta iota delta [bind]
  | |- wp _ (sim_parse_dns _) _ => apply wp_parse_dns; [gs; assumption | gs; assumption | gs; intros | gs; intros | gs; intros | gs; intros | gs; intros]
  | |- wp _ (sim_parse_ciprxget4 _ _) _ => apply wp_ciprxget4; [gs; assumption | gs; intros | gs; intros]
  | |- wp _ (sim_parse_ciprxget2 _ _) _ => apply wp_ciprxget2; [gs; assumption | gs; intros | gs; intros]
  | |- wp _ (sim_parse_csq _ _) _ => apply wp_csq; [gs; assumption | gs; intros | gs; intros]
  | |- wp _ (sim_parse_id _) _ => apply wp_parse_id; [gs; assumption | gs; assumption | gs | gs; intros]
  | |- wp _ (sim_check_connection _ _) _ => apply wp_check_connection; [gs; assumption | lfree | cbn; lia | gs; intros | gs; intros | gs; intros]
  | |- wp _ (at_flush_read_buffer _) _ => apply wp_flush_read_buffer; [wfser | assumption | gs; intros]
  | |- wp _ (match ?o with Some _ => _ | None => _ end) _ => is_var o; destruct o
  | |- wp _ (bind (match ?o with Some _ => _ | None => _ end) _) _ => is_var o; destruct o
  end.
Ltac symsi := repeat (gs; first [symi | sym1]); gs.


Lemma cbody_port : forall p, (0 <= p < 65536)%Z -> cbody (snprintf6 p) = dec p.
Proof. intros p H. rewrite cbody_free by apply snprintf6_free. apply snprintf6_exact. lia. Qed.

Lemma id_request_free : forall icc b c, ~ In NUL icc -> id_request icc b = Some c -> cbody c = c.
Proof.
  intros icc b c H E. apply cbody_free. unfold id_request in E. destruct (nth_error b 1); [|discriminate].
  destruct (id_of_code a) as [[]|]; inversion E; subst; try exact H; lfree.
Qed.

Ltac ports := repeat match goal with
  | H : (0 <= ?p < 65536)%Z |- context [cbody (snprintf6 ?p)] => rewrite (cbody_port p H)
  | H : (0 <= ?p < 65536)%Z, W : context [cbody (snprintf6 ?p)] |- _ => rewrite (cbody_port p H) in W
  end.
Ltac still :=
  let Hs := fresh in intro Hs;
  repeat match goal with H : sched ?a = [] -> ?y = ?a |- _ => specialize (H Hs); subst y end;
  repeat match goal with H : sched ?a = [] -> ?y = ?a /\ _ |- _ => specialize (H Hs); destruct H as [H ?]; subst y end.
Ltac request_still :=
  still;
  match goal with
  | Hn : ?n = Z.min _ _ |- _ => unfold fits in *; rewrite u64_small in Hn by lia; lia
  end.
(** The facts about a requested size. *)
Ltac request_size :=
  match goal with
  | Hn : ?n = Z.min _ _ |- _ =>
      match goal with |- context [u64 ?e] => idtac | _ => idtac end;
      repeat match type of Hn with context [u64 ?e] => pose proof (u64_range e); let u := fresh in set (u := u64 e) in * end;
      lia
  end.
