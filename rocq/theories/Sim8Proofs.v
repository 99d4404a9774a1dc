(** What one run() of the SIM800 driver does. *)
From Coq Require Import String Ascii ZArith List Bool Arith Lia ZifyBool ZifyNat.
From Verif Require Import Base QueueSpec LineSpec SerialSpec Ring RingProofs LineRing LineRingProofs Serial SerialProofs
  SerStep TaskMacros CStr CStrProofs Dev DevProofs SimDev SimProofs SimSpec Sym DrvStep DrvCommon Sim800 Sim8Spec.
Import ListNotations.
Local Open Scope nat_scope.
Ltac Zify.zify_post_hook ::= Z.div_mod_to_equations.

Local Notation dv := (dev s8send s8reply simx).

Definition s8_inv (d : dv) : Prop :=
  dok d /\ length (ip (ext d)) = 16 /\ length (idbuf (ext d)) = 24 /\ (0 < maxrx (ext d) < 100000)%Z /\
  (10 <= s8_rank (sst d) <= 18 \/ rst d = R8Ciprxget2 -> rst d <> R8Cdnsgip -> In NUL (ip (ext d))) /\ In NUL (idbuf (ext d)).

Definition s8_bad (d : dv) : Prop :=
  (sst d = S8SendCstt /\ not_str (apn (ext d))) \/
  (sst d = S8SendDnsQuery /\ not_str (host d)) \/
  (exists d1 a, at_fill d = Ok (true, d1) /\ rst d = R8Cdnsgip /\ dns_good (lbuf d1) /\
     dns_ip (str_body (lbuf d1)) = Some a /\ 15 < length a).


Ltac open_inv d H :=
  destruct d as [io0 op0 rb0 wb0 ty0 ho0 po0 [fc0 fr0 fd0 fx0 fi0 fn0 fk0] cs0 wt0 lb0 lf0 ss0 rs0 tw0 tc0 td0 si0 tk0 [ap0 ip0 id0 mx0]]; unfold s8_inv, dok, line_ok in H; dsimp; cbn [apn ip idbuf maxrx] in *;
  destruct H as ((Hwf & Hr & Ht & Hrw & Hrs & Hww & Hws & Hwf2 & Hl & Hw & Htr & Htc & Hpo) & Hip & Hid & Hmx & Hipn & Hidn).

Ltac sym8 :=
  match goal with
  | |- wp _ (w_ptr ?p _) _ => is_var p; destruct p
  | |- wp _ (w_ptr PUninit _) _ => unfold w_ptr; cbn [wp]
  | |- wp _ (w_ptr PNull _) _ => unfold w_ptr; cbn [wp]
  | |- wp _ (w_arr _ _) _ => apply wp_w_arr; [wfser | | gs; let y := fresh "y" in let H := fresh "W" in intros y H]
  | |- wp _ (sim_send_dns _) _ => apply wp_send_dns; [wfser | gs; intro | gs; intros | gs; intros]
  | |- wp _ (s8_send_cipstart _) _ => unfold s8_send_cipstart
  | |- wp _ (s8_connected _) _ => unfold s8_connected, at_handle_disconnect; gs
  | |- wp _ (at_prepare_sending _ _) _ => apply wp_prepare_sending; [wfser | gs; sfits | gs; sfits | gs; intros | gs; intros]
  | |- wp _ (at_send_data _) _ => apply wp_send_data; [wfser | assumption | assumption | gs; intros]
  | |- wp _ (sim_send_ciprxget2 _) _ => apply wp_send_ciprxget2; [wfser | gs; sfits | gs; lia | assumption | gs; intros | gs; intros]
  | |- wp _ (at_receive _) _ => apply wp_receive; [wfser | assumption | assumption | assumption | gs; intros | gs; intros]
  | |- wp _ (sim_send_id _ _) _ => apply wp_send_id; [wfser | assumption | | gs; intros | gs; intros]
  | |- wp _ (let (_, _) := (if ?b then _ else _) in _) _ => destruct b eqn:?
  end.
Ltac syms := repeat (gs; first [sym1 | sym8]); gs.
Ltac cases := repeat match goal with |- context [if ?b then _ else _] => destruct b eqn:? end.
Ltac nulip := match goal with H : _ -> _ -> In NUL ?i |- In NUL ?i => apply H; [first [right; first [reflexivity | assumption] | left; first [assumption | (cbn; lia)]] | first [assumption | discriminate]] end.
Ltac inv_leaf := cases; unfold s8_inv, dok; gs; cbn [s8_rank]; repeat leaf1; try (intros; repeat match goal with H : _ \/ _ |- _ => destruct H end; first [lia | congruence | nulip | apply in_mid | assumption | (apply in_list_set1; assumption)]).

(** The invariant through the state machine. *)
Lemma s8_machine_inv : forall (U : Prop) d, s8_inv d -> rst d = R8Ok ->
  (sst d = S8SendCstt -> not_str (apn (ext d)) -> U) ->
  (sst d = S8SendDnsQuery -> not_str (host d) -> U) ->
  wp U (s8_machine d) s8_inv.
Proof.
  intros U d H Hrst HU1 HU2. open_inv d H. subst rs0.
  unfold s8_machine, at_handle_connect, at_handle_disconnect. gs. destruct ss0; gs.
  all: syms.
  all: try (apply HU1; [reflexivity | unfold not_str; congruence]).
  all: try (apply HU2; [reflexivity | assumption]).
  all: inv_leaf.
Qed.

Lemma s8_output_inv : forall (U : Prop) d, s8_inv d ->
  (sst d = S8SendCstt -> not_str (apn (ext d)) -> U) ->
  (sst d = S8SendDnsQuery -> not_str (host d) -> U) ->
  wp U (s8_output d) s8_inv.
Proof.
  intros U d H HU1 HU2. unfold s8_output. destruct (wait d) eqn:Ew; [exact H|].
  destruct (rst d) eqn:Er; cbn [r8_ok negb]; try exact H.
  open_inv d H. subst. syms.
  all: try (apply s8_machine_inv; [inv_leaf|gs; reflexivity|gs; assumption|gs; assumption]).
  all: inv_leaf.
Qed.

(** What follows a state's command: the next state, the reply waited for, and
    the reply to parse. *)
Definition s8_after (s : s8send) : s8send * option bytes * s8reply :=
  match s with
  | S8Connecting => (S8SendCiprxget, Some (bs "OK"), R8Ok)
  | S8SendCiprxget => (S8SendCipmux, Some (bs "OK"), R8Ok)
  | S8SendCipmux => (S8SendCstt, Some (bs "OK"), R8Ok)
  | S8SendCstt => (S8SendCiicr, Some (bs "OK"), R8Ok)
  | S8SendCiicr => (S8SendCifsr, Some (bs "OK"), R8Ok)
  | S8SendCifsr => (S8SendDnsQuery, None, R8Cifsr)
  | S8SendDnsQuery => (S8SendCipstart, Some (bs "OK"), R8Cdnsgip)
  | S8SendCipstart => (S8FinalizeConnect, Some (bs "0, CONNECT OK"), R8Cipstart)
  | S8SendCiprxget4 => (S8SendCiprxget2, Some (bs "OK"), R8Ciprxget4)
  | S8SendCipclose => (S8SendCipshut, Some (bs "0, CLOSE OK"), R8Ok)
  | _ => (S8FinalizeDisconnect, Some (bs "SHUT OK"), R8Ok)
  end.
Definition s8_next (d d' : dv) (n : s8send * option bytes * s8reply) : Prop :=
  sst d' = fst (fst n) /\ wait d' = snd (fst n) /\ rst d' = snd n.

(** What the driver may send, and the state it is left in. *)
Definition s8_says (d : dv) (cmd : bytes) (d' : dv) : Prop :=
  (rssi d = INT16_MAX /\ cmd = bs "AT+CSQ" ++ [CR; LF] /\ s8_next d d' (sst d, Some (bs "OK"), R8Csq)) \/
  (exists c, id_request s8_iccid_command (idbuf (ext d)) = Some c /\ cmd = c ++ [CR; LF] /\ s8_next d d' (sst d, Some (bs "OK"), R8RequestID)) \/
  (exists c, s8_command (sst d) (apn (ext d)) (host d) (ip (ext d)) (typ d) (port d) = Some c /\ cmd = c ++ [CR; LF] /\
     s8_next d d' (s8_after (sst d))) \/
  (sst d = S8SendCiprxget2 /\ (sst d' = S8WaitReceive /\ wait d' = None /\ rst d' = R8Ciprxget2) /\ exists n, cmd = bs "AT+CIPRXGET=2,0," ++ dec n ++ [CR; LF] /\
     (0 <= n)%Z /\ (n <= toReceive d)%Z /\ (n <= Z.of_nat (ring_space (rbuf d)))%Z /\ (n <= maxrx (ext d))%Z /\
     (sched (io d) = [] -> (0 < n)%Z /\ (n + 8 <= Z.of_nat (rxsz (io d)) - Z.of_nat (rxav (io d)))%Z)).
Definition s8_tail (d : dv) : bytes := [CR; LF].

Ltac sayleaf :=
  repeat match goal with H : ?v = PStr _ |- _ => is_var v; subst v end;
  ports; unfold s8_says, s8_tail, s8_command, quoted, text in *; gs;
  match goal with
  | |- wroteb _ _ _ => repeat match goal with H : (_ =? _)%Z = _ |- _ => rewrite H end; repeat rewrite <- app_assoc; assumption
  | |- _ \/ _ =>
    first
    [ left; split; [lia | split; [reflexivity | unfold s8_next; splits; reflexivity]]
    | right; left; eexists; split; [eassumption | split; [match goal with H : id_request ?i ?b = Some ?c |- _ => rewrite (id_request_free i b c ltac:(lfree) H) end; reflexivity
        | unfold s8_next; splits; reflexivity]]
    | right; right; left; repeat match goal with H : (_ =? _)%Z = _ |- _ => rewrite H end; eexists; split; [reflexivity|];
      (split; [repeat rewrite <- app_assoc; reflexivity | unfold s8_next; splits; reflexivity])
    | right; right; right; split; [reflexivity|]; split; [splits; reflexivity|]; eexists; split; [reflexivity|]; splits ]
  end.

(** What the sending half does. *)
Definition s8_insend (s : s8send) : bool := match s with S8SendData => true | _ => false end.

Lemma s8_output_step : forall (U : Prop) d, s8_inv d ->
  (sst d = S8SendCstt -> not_str (apn (ext d)) -> U) ->
  (sst d = S8SendDnsQuery -> not_str (host d) -> U) ->
  wp U (s8_output d) (ostep r8_ok s8_says s8_tail s8_insend true d).
Proof.
  intros U d H HU1 HU2. unfold s8_output. destruct (wait d) eqn:Ew.
  { apply o_quiet; auto. all: try (unfold keep, keep_line; tauto). apply ioeff_refl. apply H. }
  destruct (rst d) eqn:Er; cbn [r8_ok negb].
  all: try (apply o_quiet; auto; try (unfold keep, keep_line; tauto); apply ioeff_refl; apply H).
  open_inv d H. subst. syms.
  all: try (match goal with |- wp _ (s8_machine _) _ =>
       unfold s8_machine, at_handle_connect, at_handle_disconnect; gs; destruct ss0; gs; syms end).
  all: try (apply HU1; [reflexivity | unfold not_str; congruence]).
  all: try (apply HU2; [reflexivity | assumption]).
  all: try nulip.
  all: cases; gs; ostep_leaf; try small.
  all: sayleaf. all: first [request_size | request_still].
Qed.

(** A complete line ends the waiting if it is the expected reply, an error, or
    the notice that the peer closed. *)
Definition s8_error_line (L : bytes) : Prop :=
  prefixb (bs "+PDP: DEACT") L = true \/ prefixb (bs "+CME ERROR") L = true \/ prefixb (bs "ERROR") L = true.
Definition s8_clears (d : dv) (L : bytes) : Prop :=
  (exists w, wait d = Some w /\ prefixb w L = true) \/ s8_error_line L \/ prefixb (bs "0, CLOSED") L = true.

Definition s8_parsed (d d' : dv) : Prop :=
  s8_inv d' /\ parsed (lbuf d') /\ pkeep d d' /\ (s8_insend (sst d') = true -> s8_insend (sst d) = true) /\
  (lbuf d' = lbuf d \/ prefixb (bs "+CDNSGIP: 1") (lbuf d) = true /\ prefixb (bs "+CDNSGIP: 1") (lbuf d') = true).
Definition s8_waits (d d' : dv) : Prop := wait d' = wait d \/ (wait d' = None /\ s8_clears d (lbuf d)).

Ltac pleaf := unfold s8_parsed, pkeep, keep; splits; gs; [inv_leaf | assumption | reflexivity.. | first [discriminate | exact (fun x => x)] | ]; first [left; reflexivity | right; split; [match goal with H : dns_good _ |- _ => exact (proj1 H) end | assumption]].

Ltac wleaf := unfold s8_waits, s8_clears; gs;
  first [left; reflexivity
        |right; split; [reflexivity | first [left; eexists; split; [reflexivity | assumption] | right; left; assumption | right; right; assumption]]].

Ltac symj :=
  match goal with
  | |- wp _ (bind (count_char _ _) _) _ => rewrite count_char_spec by (first [discriminate | match goal with H : parsed _ |- _ => apply H end]); cbn beta iota delta [bind]
  | |- wp _ (let (_, _) := (if ?b then _ else _) in _) _ => destruct b eqn:?
  end.
Ltac symsj := repeat (gs; first [symi | symj | sym1]); gs.

Lemma s8_is_error_eq : forall d : dv, parsed (lbuf d) ->
  s8_is_error d = Ok (prefixb (bs "+PDP: DEACT") (lbuf d) || prefixb (bs "+CME ERROR") (lbuf d) || prefixb (bs "ERROR") (lbuf d)).
Proof.
  intros d Hp. unfold s8_is_error.
  assert (Hl : length (lbuf d) = 61) by apply Hp.
  rewrite !lstarts_eq by (first [lfree | (rewrite Hl; cbn; lia)]). cbn [bind].
  destruct (prefixb _ _); [reflexivity|]. destruct (prefixb _ _); [reflexivity|]. reflexivity.
Qed.
Lemma s8_error_dec : forall L, (prefixb (bs "+PDP: DEACT") L || prefixb (bs "+CME ERROR") L || prefixb (bs "ERROR") L) = true <-> s8_error_line L.
Proof. intro L. unfold s8_error_line. rewrite !orb_true_iff. tauto. Qed.

Lemma s8_standard_parsed : forall (U : Prop) d, s8_inv d -> parsed (lbuf d) -> lbfill d = 0 ->
  wp U (s8_standard_reply d) (fun d' => s8_parsed d d' /\ lbuf d' = lbuf d /\ s8_waits d d' /\ rst d' = rst d).
Proof.
  intros U d H Hp Hf. open_inv d H. subst lf0. unfold s8_standard_reply. gs. destruct wt0; symsi.
  all: cases; (split; [pleaf|split; [reflexivity|split; [wleaf|reflexivity]]]).
Qed.

Lemma s8_special_parsed : forall P (U : Prop) d, s8_inv d -> parsed (lbuf d) -> lbfill d = 0 ->
  (forall a, rst d = R8Cdnsgip -> dns_good (lbuf d) -> dns_ip (str_body (lbuf d)) = Some a -> 15 < length a -> U) ->
  wp U (s8_special_reply P d) (fun d' => s8_parsed d d' /\ wait d' = wait d).
Proof.
  intros P U d H Hp Hf HU. open_inv d H. subst lf0. unfold s8_special_reply, at_handle_disconnect. gs. destruct rs0; try destruct wt0; symsj.
  all: try (eapply HU; eauto; fail).
  all: cases; (split; [pleaf|reflexivity]).
Qed.

Lemma s8_check_parsed : forall (U : Prop) d, s8_inv d -> parsed (lbuf d) -> lbfill d = 0 ->
  wp U (sim_check_connection (bs "0, CLOSED") d) 
    (fun d' => s8_parsed d d' /\ (wait d' = wait d \/ wait d' = None /\ prefixb (bs "0, CLOSED") (lbuf d) = true)).
Proof.
  intros U d H Hp Hf. open_inv d H. subst lf0. symsi. all: split; [pleaf|gs; auto].
Qed.

Lemma s8_parsed_trans : forall a b c, s8_parsed a b -> s8_parsed b c -> s8_parsed a c.
Proof.
  intros a b c (A1 & A2 & A3 & A5' & A4) (B1 & B2 & B3 & B5' & B4). split; [assumption|]. split; [assumption|].
  split; [exact (pkeep_trans _ _ _ _ _ _ A3 B3)|]. split; [auto|]. destruct A4 as [A4|[A4 A5]], B4 as [B4|[B4 B5]].
  - left. congruence.
  - right. rewrite <- A4. auto.
  - right. rewrite B4. auto.
  - right. auto.
Qed.

Lemma s8_parse_parsed : forall P (U : Prop) d, s8_inv d -> parsed (lbuf d) -> lbfill d = 0 ->
  (forall a, rst d = R8Cdnsgip -> dns_good (lbuf d) -> dns_ip (str_body (lbuf d)) = Some a -> 15 < length a -> U) ->
  wp U (s8_parse P d) (fun p => s8_parsed d (snd p) /\ s8_waits d (snd p)).
Proof.
  intros P U d H Hp Hf HU. unfold s8_parse. rewrite s8_is_error_eq by assumption. cbn [bind].
  destruct (_ || _) eqn:He.
  { apply s8_error_dec in He. cbn [wp snd]. split.
    - clear HU He. open_inv d H. subst lf0. pleaf.
    - right. split; [reflexivity|]. right. left. exact He. }
  clear He. apply wp_bind.
  eapply wp_mono; [apply s8_standard_parsed; assumption|]. intros d1 (P1 & L1 & W1 & R1).
  assert (F1 : lbfill d1 = 0) by (destruct P1 as (_ & _ & K & _); unfold pkeep in K; intuition congruence).
  apply wp_bind. eapply wp_mono; [apply s8_special_parsed; try apply P1; try assumption|].
  { intros a. rewrite R1, L1. apply HU. }
  intros d2 (P2 & W2).
  pose proof (s8_parsed_trans _ _ _ P1 P2) as P12.
  assert (W12 : s8_waits d d2) by (unfold s8_waits in *; rewrite W2; exact W1).
  destruct (s8_rank S8Connected <=? s8_rank (sst d2)); [|cbn [wp snd]; split; [exact P12|exact W12]].
  assert (F2 : lbfill d2 = 0) by (destruct P2 as (_ & _ & K & _); unfold pkeep in K; intuition congruence).
  apply wp_bind. eapply wp_mono; [apply s8_check_parsed; try apply P2; assumption|].
  intros d3 [P3 W3]. cbn [wp snd]. split; [exact (s8_parsed_trans _ _ _ P12 P3)|].
  destruct W3 as [W3|[W3 C3]].
  - destruct W12 as [W|[W C]]; [left|right]; rewrite W3; auto.
  - right. split; [assumption|]. unfold s8_clears in *.
    destruct P12 as (_ & _ & _ & _ & [E|[E1 E2]]).
    + rewrite E in C3. auto.
    + pose proof (prefix_clash _ _ _ C3 E2) as HH. discriminate HH.
Qed.

(** The reading half. *)
Definition s8_long_dns (d : dv) : Prop :=
  exists d1 a, at_fill d = Ok (true, d1) /\ rst d = R8Cdnsgip /\ dns_good (lbuf d1) /\
     dns_ip (str_body (lbuf d1)) = Some a /\ 15 < length a.

Definition s8_handles (P : plat) (d : dv) (ret : bool) (d' : dv) (L : bytes) : Prop :=
  exists r y, length (L ++ NUL :: r) = 61 /\ serial_wf (ser y) /\ s8_inv (line_at L r y d) /\ s8_parse P (line_at L r y d) = Ok (ret, d').

Lemma s8_input_step : forall P (U : Prop) d, s8_inv d -> (s8_long_dns d -> U) ->
  wp U (s8_input P d) (fun p => s8_inv (snd p) /\
    istep s8_insend (fun _ => whole_line) (fun _ => partial_line) s8_clears (s8_handles P d (fst p) (snd p)) d (fst p) (snd p)).
Proof.
  intros P U d H HU. pose proof H as Hi. destruct Hi as (Hd & Hip & Hid & Hmx & Hipn & Hidn).
  unfold s8_input. eapply wp_bind_eq; [apply (fill_ok _ _ _ d); apply Hd|].
  intros [[] d1] Ef Hf.
  - destruct Hf as [[E F]|[(y & tk & lb & E & _)|(y & tk & lb & r & E & F & HI & Hlb & Htk & Hwl & Hlb2)]];
      inversion E. subst d1. clear E.
    assert (Hp : parsed lb) by (exact (fill_parsed _ _ _ Hlb2 Hlb)).
    assert (H1 : s8_inv (set_lbfill 0 (set_lbuf lb (set_io y d)))).
    { clear Ef HU Hd Hip Hid Hmx Hipn Hidn Hlb2. open_inv d H. inv_leaf. }
    assert (Hw : wp U (s8_parse P (set_lbfill 0 (set_lbuf lb (set_io y d))))
      (fun p => (s8_parsed (set_lbfill 0 (set_lbuf lb (set_io y d))) (snd p) /\ s8_waits (set_lbfill 0 (set_lbuf lb (set_io y d))) (snd p)) /\
         s8_parse P (set_lbfill 0 (set_lbuf lb (set_io y d))) = Ok p)).
    { apply wp_eq. apply s8_parse_parsed; [exact H1|exact Hp|reflexivity|]. intros a A1 A2 A3 A4. apply HU. exists (set_lbfill 0 (set_lbuf lb (set_io y d))), a. splits; auto. }
    eapply wp_mono; [exact Hw|]. clear Hw.
    + intros [ret d2]. cbn [fst snd]. intros (((I2 & _ & (K1 & K2 & K3 & K4) & K5 & _) & W) & Heq). split; [assumption|].
      unfold keep in K2. dsimp. exists (aLine tk (pending d ++ tk)). split; [|intros tk' L' EL; injection EL as _ <-; exists r, y; unfold line_at; rewrite <- Hlb2;
        splits; [assumption|exact (ioeff_wf _ _ _ _ HI)|exact H1|exact Heq]]. eapply (il_line _ _ _ _ _ _ _ tk); unfold keep; splits; try apply K2; auto.
      * rewrite K1. exact HI.
      * unfold s8_waits, s8_clears in W. dsimp. rewrite Hlb2 in W.
        destruct W as [W|[W C]]; [left; exact W|right; split; [exact W|]]. unfold s8_clears.
        assert (PL : forall l, forallb (fun c => negb (Ascii.eqb c NUL)) l = true -> prefixb l ((pending d ++ tk) ++ NUL :: r) = prefixb l (pending d ++ tk)).
        { intros l Hl. apply prefixb_line. intro Hin. rewrite forallb_forall in Hl. apply Hl in Hin. rewrite Ascii.eqb_refl in Hin. discriminate. }
        unfold s8_error_line in *. rewrite (PL (bs "+PDP: DEACT") eq_refl), (PL (bs "+CME ERROR") eq_refl), (PL (bs "ERROR") eq_refl), (PL (bs "0, CLOSED") eq_refl) in C.
        destruct C as [(w & Hw & C)|C]; [|right; exact C].
        left. exists w. split; [exact Hw|]. rewrite prefixb_line in C; [exact C|].
        destruct Hd as (_ & _ & _ & _ & _ & _ & _ & _ & _ & Hwo & _). rewrite Hw in Hwo. apply Hwo.
  - eapply wp_mono; [apply (input_rest _ _ _ s8_insend s8_clears U (s8_is_receiving (sst d1)) d d1 Hd Hf)|].
    intros [ret d2] (A1 & A2 & A3 & A4 & A5). split; [|destruct A5 as (a & A5 & A6); exists a; split; [exact A5|intros tk L E; destruct (A6 _ _ E)]]. unfold s8_inv. rewrite A2, A3, A4. auto 10.
Qed.

(** Reset: the state is set back, and the connection attempt renewed if there
    was one. *)
Definition s8_reset_state (s : s8send) : s8send :=
  if (s8_rank s <? 7) || (20 <? s8_rank s) then S8NotConnected else S8SendCipshut.
Definition s8_reconnects (d : dv) : bool :=
  match apn (ext d), host d with PStr _, PStr _ => (1 <=? cs_rank (cst d)) && negb (port d =? 0)%Z | _, _ => false end.
Lemma s8_reset_inv : forall (U : Prop) d, s8_inv d ->
  wp U (s8_reset d) (fun d' => s8_inv d' /\ rst d' = R8Ok /\ wait d' = None /\ toWrite d' = 0%Z /\ toRead d' = 0%Z /\
    toReceive d' = 0%Z /\ keep d d' /\ keep_line d d' /\ cst d' = cst d /\ sst d' = s8_reset_state (sst d) /\
    fl d' = fl (if s8_reconnects d then on_connect true (on_reset false d) else on_reset false d) /\
    ext d' = ext d /\ rssi d' = rssi d /\
    exists ev, sstep (io d) (io d') ev /\ clean ev /\ taken ev = [] /\ put ev = [] /\ rxav (io d') = 0 /\ txav (io d') <= txav (io d)).
Proof.
  intros U d H. open_inv d H. unfold s8_reset. apply wp_bind. apply wp_flush_rx; [wfser|].
  gs. intros y ev HS HC HT HP HR HX _ HL. syms. unfold keep, keep_line, s8_reconnects, s8_reset_state, sim_connect, ip_connect. gs.
  change (cs_rank csIntermediate) with 1. destruct ap0, ho0; gs; destruct (1 <=? cs_rank cs0); gs; try destruct (po0 =? 0)%Z; cbn [negb andb snd]; gs.
  all: splits; try reflexivity; try (exists ev; splits; auto; fail); destruct (_ || _); inv_leaf.
Qed.
