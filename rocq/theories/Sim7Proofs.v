(** What one run() of the SIM7x00 driver does. *)
From Coq Require Import String Ascii ZArith List Bool Arith Lia ZifyBool ZifyNat.
From Verif Require Import Base QueueSpec LineSpec SerialSpec Ring RingProofs LineRing LineRingProofs Serial SerialProofs
  SerStep TaskMacros CStr CStrProofs Dev DevProofs SimDev SimProofs SimSpec Sym DrvStep DrvCommon Sim7x00 Sim7Spec.
Import ListNotations.
Local Open Scope nat_scope.
Ltac Zify.zify_post_hook ::= Z.div_mod_to_equations.

Local Notation dv := (dev s7send s7reply simx).

Definition s7_inv (d : dv) : Prop :=
  dok d /\ length (ip (ext d)) = 16 /\ length (idbuf (ext d)) = 24 /\ (0 < maxrx (ext d) < 100000)%Z /\
  (10 <= s7_rank (sst d) <= 18 \/ rst d = R7Ciprxget2 -> rst d <> R7Cdnsgip -> In NUL (ip (ext d))) /\ In NUL (idbuf (ext d)).

Definition s7_bad (d : dv) : Prop :=
  (sst d = S7SendCgsockcont /\ not_str (apn (ext d))) \/
  (sst d = S7SendDnsQuery /\ not_str (host d)) \/
  (exists d1 a, at_fill d = Ok (true, d1) /\ rst d = R7Cdnsgip /\ dns_good (lbuf d1) /\
     dns_ip (str_body (lbuf d1)) = Some a /\ 15 < length a).


Ltac open_inv d H :=
  destruct d as [io0 op0 rb0 wb0 ty0 ho0 po0 [fc0 fr0 fd0 fx0 fi0 fn0 fk0] cs0 wt0 lb0 lf0 ss0 rs0 tw0 tc0 td0 si0 tk0 [ap0 ip0 id0 mx0]]; unfold s7_inv, dok, line_ok in H; dsimp; cbn [apn ip idbuf maxrx] in *;
  destruct H as ((Hwf & Hr & Ht & Hrw & Hrs & Hww & Hws & Hwf2 & Hl & Hw & Htr & Htc & Hpo) & Hip & Hid & Hmx & Hipn & Hidn).

Ltac sym7 :=
  match goal with
  | |- wp _ (w_ptr_len ?p _) _ => is_var p; destruct p
  | |- wp _ (w_ptr ?p _) _ => is_var p; destruct p
  | |- wp _ (w_ptr_len PUninit _) _ => unfold w_ptr_len; cbn [wp]
  | |- wp _ (w_ptr_len PNull _) _ => unfold w_ptr_len; cbn [wp]
  | |- wp _ (w_arr _ _) _ => apply wp_w_arr; [wfser | | gs; let y := fresh "y" in let H := fresh "W" in intros y H]
  | |- wp _ (sim_send_dns _) _ => apply wp_send_dns; [wfser | gs; intro | gs; intros | gs; intros]
  | |- wp _ (s7_send_cipopen _) _ => unfold s7_send_cipopen
  | |- wp _ (s7_connected _) _ => unfold s7_connected, at_handle_disconnect; gs
  | |- wp _ (at_prepare_sending _ _) _ => apply wp_prepare_sending; [wfser | gs; sfits | gs; sfits | gs; intros | gs; intros]
  | |- wp _ (at_send_data _) _ => apply wp_send_data; [wfser | assumption | assumption | gs; intros]
  | |- wp _ (sim_send_ciprxget2 _) _ => apply wp_send_ciprxget2; [wfser | gs; sfits | gs; lia | assumption | gs; intros | gs; intros]
  | |- wp _ (at_receive _) _ => apply wp_receive; [wfser | assumption | assumption | assumption | gs; intros | gs; intros]
  | |- wp _ (sim_send_id _ _) _ => apply wp_send_id; [wfser | assumption | | gs; intros | gs; intros]
  | |- wp _ (let (_, _) := (if ?b then _ else _) in _) _ => destruct b eqn:?
  end.
Ltac syms := repeat (gs; first [sym1 | sym7]); gs.
Ltac cases := repeat match goal with |- context [if ?b then _ else _] => destruct b eqn:? end.
Ltac nulip := match goal with H : _ -> _ -> In NUL ?i |- In NUL ?i => apply H; [first [right; first [reflexivity | assumption] | left; first [assumption | (cbn; lia)]] | first [assumption | discriminate]] end.
Ltac inv_leaf := cases; unfold s7_inv, dok; gs; cbn [s7_rank]; repeat leaf1; try (intros; repeat match goal with H : _ \/ _ |- _ => destruct H end; first [lia | congruence | nulip | apply in_mid | assumption | (apply in_list_set1; assumption)]).

(** The invariant through the state machine. *)
Lemma s7_machine_inv : forall (U : Prop) d, s7_inv d -> rst d = R7Ok ->
  (sst d = S7SendCgsockcont -> not_str (apn (ext d)) -> U) ->
  (sst d = S7SendDnsQuery -> not_str (host d) -> U) ->
  wp U (s7_machine d) s7_inv.
Proof.
  intros U d H Hrst HU1 HU2. open_inv d H. subst rs0.
  unfold s7_machine, at_handle_connect, at_handle_disconnect. gs. destruct ss0; gs.
  all: syms.
  all: try (apply HU1; [reflexivity | unfold not_str; congruence]).
  all: try (apply HU2; [reflexivity | assumption]).
  all: inv_leaf.
Qed.

Lemma s7_output_inv : forall (U : Prop) d, s7_inv d ->
  (sst d = S7SendCgsockcont -> not_str (apn (ext d)) -> U) ->
  (sst d = S7SendDnsQuery -> not_str (host d) -> U) ->
  wp U (s7_output d) s7_inv.
Proof.
  intros U d H HU1 HU2. unfold s7_output. destruct (wait d) eqn:Ew; [exact H|].
  destruct (rst d) eqn:Er; cbn [r7_ok negb]; try exact H.
  open_inv d H. subst. syms.
  all: try (apply s7_machine_inv; [inv_leaf|gs; reflexivity|gs; assumption|gs; assumption]).
  all: inv_leaf.
Qed.

(** What follows a state's command: the next state, the reply waited for, and
    the reply to parse. *)
Definition s7_after (s : s7send) : s7send * bytes * s7reply :=
  match s with
  | S7Connecting => (S7SendCgsockcont, bs "OK", R7Ok)
  | S7SendCgsockcont => (S7SendCsocksetpn, bs "OK", R7Ok)
  | S7SendCsocksetpn => (S7SendCipmode, bs "OK", R7Ok)
  | S7SendCipmode => (S7SendNetopen, bs "OK", R7Ok)
  | S7SendNetopen => (S7SendCiprxget, bs "+NETOPEN: 0", R7Netopen)
  | S7SendCiprxget => (S7SendDnsQuery, bs "OK", R7Ok)
  | S7SendDnsQuery => (S7SendCipopen, bs "OK", R7Cdnsgip)
  | S7SendCipopen => (S7FinalizeConnect, bs "+CIPOPEN: 0,0", R7Cipopen)
  | S7SendCiprxget4 => (S7SendCiprxget2, bs "OK", R7Ciprxget4)
  | _ => (S7FinalizeDisconnect, bs "+NETCLOSE: 0", R7Ok)
  end.
Definition s7_next (d d' : dv) (n : s7send * bytes * s7reply) : Prop :=
  sst d' = fst (fst n) /\ wait d' = Some (snd (fst n)) /\ rst d' = snd n.

(** What the driver may send, and the state it is left in. *)
Definition s7_says (d : dv) (cmd : bytes) (d' : dv) : Prop :=
  (rssi d = INT16_MAX /\ cmd = bs "AT+CSQ" ++ [CR; LF] /\ s7_next d d' (sst d, bs "OK", R7Csq)) \/
  (exists c, id_request s7_iccid_command (idbuf (ext d)) = Some c /\ cmd = c ++ [CR; LF] /\ s7_next d d' (sst d, bs "OK", R7RequestID)) \/
  (exists c, s7_command (sst d) (apn (ext d)) (host d) (ip (ext d)) (typ d) (port d) = Some c /\ cmd = c ++ [CR; LF] /\
     s7_next d d' (s7_after (sst d))) \/
  (sst d = S7SendCiprxget2 /\ (sst d' = S7WaitReceive /\ wait d' = None /\ rst d' = R7Ciprxget2) /\ exists n, cmd = bs "AT+CIPRXGET=2,0," ++ dec n ++ [CR; LF] /\
     (0 <= n)%Z /\ (n <= toReceive d)%Z /\ (n <= Z.of_nat (ring_space (rbuf d)))%Z /\ (n <= maxrx (ext d))%Z /\
     (sched (io d) = [] -> (0 < n)%Z /\ (n + 8 <= Z.of_nat (rxsz (io d)) - Z.of_nat (rxav (io d)))%Z)).
Definition s7_tail (d : dv) : bytes :=
  (if (typ d =? UDP)%Z then bs "," ++ quoted (str_body (ip (ext d))) ++ bs "," ++ dec (port d) else []) ++ [CR; LF].

Ltac sayleaf :=
  repeat match goal with H : ?v = PStr _ |- _ => is_var v; subst v end;
  ports; unfold s7_says, s7_tail, s7_command, quoted, text in *; gs;
  match goal with
  | |- wroteb _ _ _ => repeat match goal with H : (_ =? _)%Z = _ |- _ => rewrite H end; repeat rewrite <- app_assoc; assumption
  | |- _ \/ _ =>
    first
    [ left; split; [lia | split; [reflexivity | unfold s7_next; splits; reflexivity]]
    | right; left; eexists; split; [eassumption | split; [match goal with H : id_request ?i ?b = Some ?c |- _ => rewrite (id_request_free i b c ltac:(lfree) H) end; reflexivity
        | unfold s7_next; splits; reflexivity]]
    | right; right; left; repeat match goal with H : (_ =? _)%Z = _ |- _ => rewrite H end; eexists; split; [reflexivity|];
      (split; [repeat rewrite <- app_assoc; reflexivity | unfold s7_next; splits; reflexivity])
    | right; right; right; split; [reflexivity|]; split; [splits; reflexivity|]; eexists; split; [reflexivity|]; splits ]
  end.

(** What the sending half does. *)
Definition s7_insend (s : s7send) : bool := match s with S7SendData => true | _ => false end.

Lemma s7_output_step : forall (U : Prop) d, s7_inv d ->
  (sst d = S7SendCgsockcont -> not_str (apn (ext d)) -> U) ->
  (sst d = S7SendDnsQuery -> not_str (host d) -> U) ->
  wp U (s7_output d) (ostep r7_ok s7_says s7_tail s7_insend true d).
Proof.
  intros U d H HU1 HU2. unfold s7_output. destruct (wait d) eqn:Ew.
  { apply o_quiet; auto. all: try (unfold keep, keep_line; tauto). apply ioeff_refl. apply H. }
  destruct (rst d) eqn:Er; cbn [r7_ok negb].
  all: try (apply o_quiet; auto; try (unfold keep, keep_line; tauto); apply ioeff_refl; apply H).
  open_inv d H. subst. syms.
  all: try (match goal with |- wp _ (s7_machine _) _ =>
       unfold s7_machine, at_handle_connect, at_handle_disconnect; gs; destruct ss0; gs; syms end).
  all: try (apply HU1; [reflexivity | unfold not_str; congruence]).
  all: try (apply HU2; [reflexivity | assumption]).
  all: try nulip.
  all: cases; gs; ostep_leaf; try small.
  all: sayleaf. all: first [request_size | request_still].
Qed.

(** A complete line ends the waiting if it is the expected reply, an error, the
    "already open" reply to AT+NETOPEN, or the notice that the peer closed. *)
Definition s7_clears (d : dv) (L : bytes) : Prop :=
  (exists w, wait d = Some w /\
     (prefixb w L = true \/ prefixb (bs "ERROR") L = true \/ (rst d = R7Netopen /\ prefixb (bs "+NETOPEN: 1") L = true))) \/
  prefixb (bs "+IPCLOSE: 0,") L = true.

Definition s7_parsed (d d' : dv) : Prop :=
  s7_inv d' /\ parsed (lbuf d') /\ pkeep d d' /\ (s7_insend (sst d') = true -> s7_insend (sst d) = true) /\
  (lbuf d' = lbuf d \/ prefixb (bs "+CDNSGIP: 1") (lbuf d) = true /\ prefixb (bs "+CDNSGIP: 1") (lbuf d') = true).
Definition s7_waits (d d' : dv) : Prop := wait d' = wait d \/ (wait d' = None /\ s7_clears d (lbuf d)).

Ltac pleaf := unfold s7_parsed, pkeep, keep; splits; gs; [inv_leaf | assumption | reflexivity.. | first [discriminate | exact (fun x => x)] | ]; first [left; reflexivity | right; split; [match goal with H : dns_good _ |- _ => exact (proj1 H) end | assumption]].

Ltac wleaf := unfold s7_waits, s7_clears; gs;
  first [left; reflexivity
        |right; split; [reflexivity | first [left; eexists; split; [reflexivity | tauto] | right; assumption]]].

Lemma s7_standard_parsed : forall (U : Prop) d, s7_inv d -> parsed (lbuf d) -> lbfill d = 0 ->
  wp U (s7_standard_reply d) (fun p => s7_parsed d (snd p) /\ lbuf (snd p) = lbuf d /\ s7_waits d (snd p) /\ rst (snd p) = rst d).
Proof.
  intros U d H Hp Hf. open_inv d H. subst lf0. unfold s7_standard_reply. gs. destruct wt0; symsi.
  all: split; [pleaf|split; [reflexivity|split; [wleaf|reflexivity]]].
Qed.

Lemma s7_special_parsed : forall P (U : Prop) d, s7_inv d -> parsed (lbuf d) -> lbfill d = 0 ->
  (forall a, rst d = R7Cdnsgip -> dns_good (lbuf d) -> dns_ip (str_body (lbuf d)) = Some a -> 15 < length a -> U) ->
  wp U (s7_special_reply P d) (fun p => s7_parsed d (snd p) /\ s7_waits d (snd p)).
Proof.
  intros P U d H Hp Hf HU. open_inv d H. subst lf0. unfold s7_special_reply. gs. destruct rs0; try destruct wt0; symsi.
  all: try (eapply HU; eauto; fail).
  all: cases; (split; [pleaf|wleaf]).
Qed.

Lemma s7_check_parsed : forall (U : Prop) d, s7_inv d -> parsed (lbuf d) -> lbfill d = 0 ->
  wp U (sim_check_connection (bs "+IPCLOSE: 0,") d) 
    (fun d' => s7_parsed d d' /\ (wait d' = wait d \/ wait d' = None /\ prefixb (bs "+IPCLOSE: 0,") (lbuf d) = true)).
Proof.
  intros U d H Hp Hf. open_inv d H. subst lf0. symsi. all: split; [pleaf|gs; auto].
Qed.


Lemma s7_parsed_trans : forall a b c, s7_parsed a b -> s7_parsed b c -> s7_parsed a c.
Proof.
  intros a b c (A1 & A2 & A3 & A5' & A4) (B1 & B2 & B3 & B5' & B4). split; [assumption|]. split; [assumption|].
  split; [exact (pkeep_trans _ _ _ _ _ _ A3 B3)|]. split; [auto|]. destruct A4 as [A4|[A4 A5]], B4 as [B4|[B4 B5]].
  - left. congruence.
  - right. rewrite <- A4. auto.
  - right. rewrite B4. auto.
  - right. auto.
Qed.

Lemma s7_parse_parsed : forall P (U : Prop) d, s7_inv d -> parsed (lbuf d) -> lbfill d = 0 ->
  (forall a, rst d = R7Cdnsgip -> dns_good (lbuf d) -> dns_ip (str_body (lbuf d)) = Some a -> 15 < length a -> U) ->
  wp U (s7_parse P d) (fun p => s7_parsed d (snd p) /\ s7_waits d (snd p)).
Proof.
  intros P U d H Hp Hf HU. unfold s7_parse. apply wp_bind.
  eapply wp_mono; [apply s7_standard_parsed; assumption|]. intros [[] d1] (P1 & L1 & W1 & R1); cbn [snd] in *; [split; assumption|].
  assert (F1 : lbfill d1 = 0) by (destruct P1 as (_ & _ & K & _); unfold pkeep in K; intuition congruence).
  apply wp_bind. eapply wp_mono; [apply s7_special_parsed; try apply P1; try assumption|].
  { intros a. rewrite R1, L1. apply HU. }
  assert (T : forall x, s7_waits d1 x -> s7_waits d x).
  { intros x [Hx|[Hx Hc]].
    - destruct W1 as [W1|[W1 C1]]; [left; congruence|right; split; [congruence|assumption]].
    - right. split; [assumption|]. unfold s7_clears in *. rewrite L1, R1 in Hc. destruct Hc as [(w & Hw & Hc)|Hc]; [|auto].
      left. destruct W1 as [W1|[W1 C1]]; [|congruence]. exists w. split; [congruence|assumption]. }
  intros [[] d2] (P2 & W2); cbn [snd] in *; [split; [exact (s7_parsed_trans _ _ _ P1 P2)|auto]|].
  pose proof (s7_parsed_trans _ _ _ P1 P2) as P12.
  destruct (s7_rank S7Connected <=? s7_rank (sst d2)); [|cbn [wp snd]; split; [exact P12|auto]].
  assert (F2 : lbfill d2 = 0) by (destruct P2 as (_ & _ & K & _); unfold pkeep in K; intuition congruence).
  apply wp_bind. eapply wp_mono; [apply s7_check_parsed; try apply P2; assumption|].
  intros d3 [P3 W3]. cbn [wp snd]. split; [exact (s7_parsed_trans _ _ _ P12 P3)|].
  destruct W3 as [W3|[W3 C3]].
  - destruct (T _ W2) as [W|[W C]]; [left|right]; rewrite W3; auto.
  - right. split; [assumption|]. unfold s7_clears in *.
    destruct P12 as (_ & _ & _ & _ & [E|[E1 E2]]).
    + rewrite E in C3. auto.
    + pose proof (prefix_clash _ _ _ C3 E2) as HH. discriminate HH.
Qed.

(** The reading half. *)
Definition s7_long_dns (d : dv) : Prop :=
  exists d1 a, at_fill d = Ok (true, d1) /\ rst d = R7Cdnsgip /\ dns_good (lbuf d1) /\
     dns_ip (str_body (lbuf d1)) = Some a /\ 15 < length a.

Definition s7_handles (P : plat) (d : dv) (ret : bool) (d' : dv) (L : bytes) : Prop :=
  exists r y, length (L ++ NUL :: r) = 61 /\ serial_wf (ser y) /\ s7_inv (line_at L r y d) /\ s7_parse P (line_at L r y d) = Ok (ret, d').

Lemma s7_input_step : forall P (U : Prop) d, s7_inv d -> (s7_long_dns d -> U) ->
  wp U (s7_input P d) (fun p => s7_inv (snd p) /\
    istep s7_insend (fun _ => whole_line) (fun _ => partial_line) s7_clears (s7_handles P d (fst p) (snd p)) d (fst p) (snd p)).
Proof.
  intros P U d H HU. pose proof H as Hi. destruct Hi as (Hd & Hip & Hid & Hmx & Hipn & Hidn).
  unfold s7_input. eapply wp_bind_eq; [apply (fill_ok _ _ _ d); apply Hd|].
  intros [[] d1] Ef Hf.
  - destruct Hf as [[E F]|[(y & tk & lb & E & _)|(y & tk & lb & r & E & F & HI & Hlb & Htk & Hwl & Hlb2)]];
      inversion E. subst d1. clear E.
    assert (Hp : parsed lb) by (exact (fill_parsed _ _ _ Hlb2 Hlb)).
    assert (H1 : s7_inv (set_lbfill 0 (set_lbuf lb (set_io y d)))).
    { clear Ef HU Hd Hip Hid Hmx Hipn Hidn Hlb2. open_inv d H. inv_leaf. }
    assert (Hw : wp U (s7_parse P (set_lbfill 0 (set_lbuf lb (set_io y d))))
      (fun p => (s7_parsed (set_lbfill 0 (set_lbuf lb (set_io y d))) (snd p) /\ s7_waits (set_lbfill 0 (set_lbuf lb (set_io y d))) (snd p)) /\
         s7_parse P (set_lbfill 0 (set_lbuf lb (set_io y d))) = Ok p)).
    { apply wp_eq. apply s7_parse_parsed; [exact H1|exact Hp|reflexivity|]. intros a A1 A2 A3 A4. apply HU. exists (set_lbfill 0 (set_lbuf lb (set_io y d))), a. splits; auto. }
    eapply wp_mono; [exact Hw|]. clear Hw.
    + intros [ret d2]. cbn [fst snd]. intros (((I2 & _ & (K1 & K2 & K3 & K4) & K5 & _) & W) & Heq). split; [assumption|].
      unfold keep in K2. dsimp. exists (aLine tk (pending d ++ tk)). split; [|intros tk' L' EL; injection EL as _ <-; exists r, y; unfold line_at; rewrite <- Hlb2;
        splits; [assumption|exact (ioeff_wf _ _ _ _ HI)|exact H1|exact Heq]]. eapply (il_line _ _ _ _ _ _ _ tk); unfold keep; splits; try apply K2; auto.
      * rewrite K1. exact HI.
      * unfold s7_waits, s7_clears in W. dsimp. rewrite Hlb2 in W.
        destruct W as [W|[W C]]; [left; exact W|right; split; [exact W|]]. unfold s7_clears.
        destruct C as [(w & Hw & C)|C]; [|right; rewrite prefixb_line in C by lfree; exact C].
        left. exists w. split; [exact Hw|].
        destruct C as [C|[C|[C0 C]]]; rewrite prefixb_line in C; auto; try lfree.
        destruct Hd as (_ & _ & _ & _ & _ & _ & _ & _ & _ & Hwo & _). rewrite Hw in Hwo. apply Hwo.
  - eapply wp_mono; [apply (input_rest _ _ _ s7_insend s7_clears U (s7_is_receiving (sst d1)) d d1 Hd Hf)|].
    intros [ret d2] (A1 & A2 & A3 & A4 & A5). split; [|destruct A5 as (a & A5 & A6); exists a; split; [exact A5|intros tk L E; destruct (A6 _ _ E)]]. unfold s7_inv. rewrite A2, A3, A4. auto 10.
Qed.

(** Reset. *)
Lemma s7_reset_inv : forall (U : Prop) d, s7_inv d ->
  wp U (s7_reset d) (fun d' => s7_inv d' /\ rst d' = R7Ok /\ wait d' = Some (bs "RDY") /\ toWrite d' = 0%Z /\ toRead d' = 0%Z /\
    toReceive d' = 0%Z /\ fl d' = flags_line_read /\ keep d d' /\ keep_line d d' /\ cst d' = cst d /\
    sst d' = (if (3 <=? s7_rank (sst d)) && (s7_rank (sst d) <=? 17) then S7Connecting else S7NotConnected) /\
    ext d' = ext d /\ rssi d' = rssi d /\
    exists y ev, sstep (io d) y ev /\ clean ev /\ taken ev = [] /\ put ev = [] /\ rxav y = 0 /\ txav y <= txav (io d) /\
      wroteb y (io d') (bs "AT+CRESET" ++ [CR; LF])).
Proof.
  intros U d H. open_inv d H. unfold s7_reset. apply wp_bind. apply wp_flush_rx; [wfser|].
  gs. intros y ev HS HC HT HP HR HX _ HL. syms. unfold keep, keep_line. gs.
  splits; try reflexivity.
  - destruct (_ && _); inv_leaf.
  - exists y, ev. splits; auto. exact (wroteb_trans _ _ _ _ _ W W0).
Qed.

(** One run(). *)
Lemma s7_run_inv : forall P (U : Prop) oo d, s7_inv d -> (s7_long_dns d -> U) ->
  (forall d1 ret, s7_input P d = Ok (ret, d1) -> sst d1 = S7SendCgsockcont -> not_str (apn (ext d1)) -> U) ->
  (forall d1 ret, s7_input P d = Ok (ret, d1) -> sst d1 = S7SendDnsQuery -> not_str (host d1) -> U) ->
  wp U (s7_run P oo d) s7_inv.
Proof.
  intros P U oo d H HU1 HU2 HU3. unfold s7_run. destruct (isopen d); cbn [negb].
  2:{ cbn [wp]. destruct oo; open_inv d H; inv_leaf. }
  destruct (fLock (fl d)); [exact H|].
  destruct (fReset (fl d)). { eapply wp_mono; [apply s7_reset_inv; exact H|]. intros d' HH. apply HH. }
  destruct (s7_input P d) as [[ret d1]|u] eqn:Ei; cbn [bind].
  - pose proof (s7_input_step P U d H HU1) as Hin. rewrite Ei in Hin. cbn [wp fst snd] in Hin. destruct Hin as [Hi _].
    destruct ret; [exact Hi|]. apply s7_output_inv; eauto.
  - pose proof (s7_input_step P U d H HU1) as Hin. rewrite Ei in Hin. exact Hin.
Qed.
