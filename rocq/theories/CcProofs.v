(** What one run() of the CC1352P7 driver does. *)
From Coq Require Import String Ascii ZArith List Bool Arith Lia ZifyBool ZifyNat.
From Verif Require Import Base QueueSpec LineSpec SerialSpec Ring RingProofs LineRing LineRingProofs Serial SerialProofs
  SerStep TaskMacros CStr CStrProofs Dev DevProofs SimDev SimProofs SimSpec Sym DrvStep DrvCommon Espressif Cc1352 CcSpec.
Import ListNotations.
Local Open Scope nat_scope.
Ltac Zify.zify_post_hook ::= Z.div_mod_to_equations.

Local Notation dv := (dev ccsend ccreply ccx).

Ltac gs ::=
  cbn [io isopen rbuf wbuf typ host port fl cst wait lbuf lbfill sst rst toWrite toReceive toRead rssi tsk ext
       set_io set_isopen set_rbuf set_wbuf set_typ set_host set_port set_fl set_cst set_wait set_lbuf set_lbfill
       set_sst set_rst set_toWrite set_toReceive set_toRead set_rssi set_tsk set_ext
       on_connect on_reset on_data on_disc on_ip on_line on_lock dev_set_delay
       fConnect fReset fData fDisc fIp fLine fLock fst snd negb andb orb
       at_handle_disconnect at_handle_connect flags_line_read
       set_cmac cmac].

Definition sc_inv (d : dv) : Prop := dok d /\ length (cmac (ext d)) = 24.

(** A complete line in the buffer: a text one character longer than "+IPD" or
    "+CIPRECVDATA", if it begins so (these two do not end a line). *)
Definition nul_after (lit lb : bytes) : Prop := prefixb lit lb = true -> In NUL (skipn (S (length lit)) lb).
Definition cparsed (lb : bytes) : Prop := parsed lb /\ nul_after (bs "+IPD") lb /\ nul_after (bs "+CIPRECVDATA") lb.

Lemma whole_after : forall (L r lit : bytes) c, whole_line L -> ~ In NUL (lit ++ [c]) -> c <> LF -> c <> GT -> length (lit ++ [c]) < 60 ->
  nul_after (lit ++ [c]) (L ++ NUL :: r).
Proof.
  intros L r lit c (body & e & E & He & _) Hf Hc1 Hc2 Hlen Hp. rewrite prefixb_line in Hp by assumption.
  apply prefixb_spec in Hp as [t Ht].
  assert (length (lit ++ [c]) < length L).
  { rewrite Ht, (app_length (lit ++ [c])). destruct t as [|x t]; [|cbn; lia]. exfalso. rewrite app_nil_r in Ht.
    rewrite Ht in E. apply app_inj_tail in E as [_ E]. subst e. unfold at_end, aeqb in He. rewrite Ht in He.
    apply orb_true_iff in He as [He|He].
    - apply orb_true_iff in He as [He|He]; apply Ascii.eqb_eq in He; contradiction.
    - apply Nat.eqb_eq in He. unfold LINE_MAX_LENGTH in He. lia. }
  rewrite skipn_app. apply in_or_app. right. replace (S (length (lit ++ [c])) - length L) with 0 by lia. left. reflexivity.
Qed.

Lemma whole_cparsed : forall (L r : bytes), whole_line L -> length (L ++ NUL :: r) = 61 -> cparsed (L ++ NUL :: r).
Proof.
  intros L r Hw Hl. split; [exact (fill_parsed L r _ eq_refl Hl)|]. split.
  - apply (whole_after L r (bs "+IP") "D"%char); try assumption; first [lfree | discriminate | (cbn; lia)].
  - apply (whole_after L r (bs "+CIPRECVDAT") "A"%char); try assumption; first [lfree | discriminate | (cbn; lia)].
Qed.

(** ** The parts of the driver *)

Definition ciprcvdata_cmd (n : Z) : bytes := bs "AT+CIPRECVDATA=" ++ dec n ++ lineEndStr.

Lemma wp_send_ciprcvdata : forall (U : Prop) (d : dv) (Q : _ -> Prop), swf d -> fits (rxsz (io d)) -> (0 <= toReceive d)%Z ->
  (forall y, ioeff (io d) y [] [] -> (rxsz (io d) - rxav y <= 30 \/ ring_space (rbuf d) = 0) -> Q (false, set_io y d)) ->
  (forall y1 y n, ioeff (io d) y1 [] [] -> wroteb y1 y (ciprcvdata_cmd n) -> 0 < ring_space (rbuf d) ->
     n = Z.min (Z.min (Z.min (u64 (Z.of_nat (rxsz (io d)) - Z.of_nat (rxav y1) - 30)) (toReceive d))
                      (Z.of_nat (ring_space (rbuf d)))) 1220 ->
     (sched (io d) = [] -> y1 = io d /\ 30 < rxsz (io d) - rxav (io d)) ->
     Q (true, set_io y d)) ->
  wp U (sc_send_ciprcvdata d) Q.
Proof.
  intros U d Q H Hf Ht HQ1 HQ2. unfold sc_send_ciprcvdata. apply wp_bind. apply wp_rx_request; auto.
  intros y1 n E1 Hsp Hn Hs. pose proof (u64_range (Z.of_nat (rxsz (io d)) - Z.of_nat (rxav y1) - 30)).
  change (Z.of_nat 30) with 30%Z in Hn. unfold CC1352P7_MAX_RX in Hn.
  rewrite sprintf6_ok by lia. cbn [bind].
  apply wp_bind. apply wp_w_str; [wfser|]. intros y2 B2.
  apply wp_bind. apply wp_w_str; [dsimp; wfser|]. intros y3 B3.
  apply wp_bind. apply wp_w_str; [dsimp; wfser|]. intros y4 B4. dsimp. cbn [wp].
  specialize (HQ2 y1 y4 n E1). dsimp. apply HQ2; auto. unfold ciprcvdata_cmd.
  eapply wroteb_trans; [exact B2|]. eapply wroteb_trans; [|exact B4].
  rewrite cbody_free in B3 by (apply digits_free, dec_digits). exact B3.
Qed.

Lemma wp_ciprecvdata : forall P (U : Prop) (d : dv) (Q : _ -> Prop), cparsed (lbuf d) ->
  (prefixb (bs "+CIPRECVDATA") (lbuf d) = false -> Q (false, d)) ->
  (forall v, prefixb (bs "+CIPRECVDATA") (lbuf d) = true -> strtol P (skipn 13 (lbuf d)) = Ok v ->
     Q (true, on_line false (set_toRead (u64 (toRead d + i32 v)) (set_toReceive (u64 (toReceive d - i32 v)) d)))) ->
  wp U (sc_parse_ciprecvdata P d) Q.
Proof.
  intros P U d Q ([Hlen Hnul] & _ & Ha) HQ1 HQ2. unfold sc_parse_ciprecvdata.
  rewrite lstarts_eq by (rewrite ?Hlen; cbn; lia || lfree). cbn [bind].
  destruct (prefixb (bs "+CIPRECVDATA") (lbuf d)) eqn:E; cbn [wp]; auto.
  destruct (strtol_safe P (skipn 13 (lbuf d)) (Ha E)) as [v Ev].
  rewrite Ev. cbn [bind wp]. specialize (HQ2 v eq_refl Ev). dsimp. exact HQ2.
Qed.

Lemma wp_sc_csq : forall P (U : Prop) (d : dv) (Q : _ -> Prop), parsed (lbuf d) ->
  (prefixb (bs "+CSQ:") (lbuf d) = false -> Q (false, d)) ->
  (forall v, prefixb (bs "+CSQ:") (lbuf d) = true -> strtol P (skipn 5 (lbuf d)) = Ok v -> Q (true, set_rssi (i16 v) d)) ->
  wp U (sc_parse_csq P d) Q.
Proof.
  intros P U d Q [Hlen Hnul] HQ1 HQ2. unfold sc_parse_csq.
  rewrite lstarts_eq by (rewrite ?Hlen; cbn; lia || lfree). cbn [bind].
  destruct (prefixb (bs "+CSQ:") (lbuf d)) eqn:E; cbn [wp]; auto.
  destruct (strtol_safe P (skipn 5 (lbuf d))) as [v Ev].
  { apply (prefix_nul (bs "+CSQ:")); auto; lfree. }
  rewrite Ev. cbn [bind wp]. auto.
Qed.

(** The MAC address buffer after a reply. *)
Definition mac_lit : bytes := bs "+CIPSTAMAC:" ++ [DQ].
Definition mac_copy (lb b : bytes) : bytes :=
  let t := firstn 23 (upto DQ (skipn 12 lb)) in t ++ NUL :: skipn (S (length t)) b.

Lemma wp_sc_mac : forall (U : Prop) (d : dv) (Q : _ -> Prop), parsed (lbuf d) -> length (cmac (ext d)) = 24 ->
  (prefixb mac_lit (lbuf d) = false -> Q d) ->
  (prefixb mac_lit (lbuf d) = true -> Q (set_rst RCOk (set_cmac (mac_copy (lbuf d) (cmac (ext d))) d))) ->
  wp U (sc_parse_mac d) Q.
Proof.
  intros U d Q [Hlen Hnul] Hm HQ1 HQ2. unfold sc_parse_mac. fold mac_lit.
  rewrite lstarts_eq by (rewrite ?Hlen; cbn; lia || lfree). cbn [bind].
  destruct (prefixb mac_lit (lbuf d)); cbn [wp]; auto. specialize (HQ2 eq_refl).
  rewrite copy_until_ok by (rewrite skipn_length, Hlen; cbn; lia). cbn [bind]. change (MAC64STRING_MAX_LENGTH - 1) with 23.
  assert (length (firstn 23 (upto DQ (skipn 12 (lbuf d)))) <= 23) by apply firstn_le_length.
  rewrite wr_list_ok by (rewrite app_length, Hm; cbn [length]; lia).
  cbn [bind wp Nat.add]. unfold mac_copy in HQ2. rewrite app_length. cbn [length]. rewrite Nat.add_1_r. rewrite <- app_assoc. exact HQ2.
Qed.

Lemma mac_copy_length : forall lb b, length b = 24 -> length (mac_copy lb b) = 24.
Proof. intros lb b H. apply id_buf_length. exact H. Qed.
Lemma mac_copy_nul : forall lb b, In NUL (mac_copy lb b).
Proof. intros lb b. apply in_mid. Qed.

Lemma wp_sc_unsolicited : forall P (U : Prop) (d : dv) (Q : _ -> Prop), cparsed (lbuf d) ->
  (forall v, prefixb (bs "+IPD") (lbuf d) = true -> strtol P (skipn 5 (lbuf d)) = Ok v -> Q (on_data true (set_toReceive (u64 v) d))) ->
  (prefixb (bs "+IPD") (lbuf d) = false -> prefixb (bs "CLOSED") (lbuf d) = true -> Q (on_ip false d)) ->
  (prefixb (bs "+IPD") (lbuf d) = false -> prefixb (bs "CLOSED") (lbuf d) = false -> Q d) ->
  wp U (sc_unsolicited P d) Q.
Proof.
  intros P U d Q ([Hlen Hnul] & Ha & _) HQ1 HQ2 HQ3. unfold sc_unsolicited.
  rewrite lmatch_eq by (rewrite ?Hlen; cbn; lia || lfree). change (firstn 4 (bs "+IPD,")) with (bs "+IPD"). cbn [bind].
  destruct (prefixb (bs "+IPD") (lbuf d)) eqn:E.
  - destruct (strtol_safe P (skipn 5 (lbuf d)) (Ha E)) as [v Ev]. rewrite Ev. cbn [bind wp]. auto.
  - rewrite lstarts_eq by (rewrite ?Hlen; cbn; lia || lfree). cbn [bind wp]. destruct (prefixb (bs "CLOSED") (lbuf d)); auto.
Qed.

Lemma wp_send_mac : forall P (U : Prop) (d : dv) (Q : _ -> Prop), swf d -> length (cmac (ext d)) = 24 ->
  (mac_request P (cmac (ext d)) && fLine (fl d) = false -> Q (false, d)) ->
  (forall y, mac_request P (cmac (ext d)) = true -> fLine (fl d) = true -> wroteb (io d) y (bs "AT+CIPSTAMAC" ++ lineEndStr) ->
     Q (true, set_wait (Some okStr) (set_rst RCReqMac (set_io y (set_cmac (list_set (cmac (ext d)) 1 NUL) d))))) ->
  wp U (sc_send_mac P d) Q.
Proof.
  intros P U d Q H Hm HQ1 HQ2. unfold sc_send_mac.
  destruct (cmac (ext d)) as [|c0 [|c1 b]] eqn:Ec; try discriminate Hm. cbn [rd nth_error bind]. unfold rd. cbn [nth_error bind].
  cbn [mac_request] in *. unfold char_is_ff, aeqb.
  destruct (negb (char_signed P) && (nat_of_ascii c1 =? 255) && Ascii.eqb c0 NUL && fLine (fl d)) eqn:E.
  - rewrite wr_ok by (cbn; lia). cbn [bind]. apply wp_bind. apply wp_send_command; [exact H|]. intros y B. cbn [wp].
    apply andb_true_iff in E as [E E4]. apply andb_true_iff in E as [E E3]. apply andb_true_iff in E as [E1 E2].
    apply HQ2; auto. rewrite E1, E2, E3. reflexivity.
  - cbn [wp]. apply HQ1. destruct (negb (char_signed P)), (nat_of_ascii c1 =? 255), (Ascii.eqb c0 NUL), (fLine (fl d)); cbn in *; congruence.
Qed.

Ltac open_inv d H :=
  destruct d as [io0 op0 rb0 wb0 ty0 ho0 po0 [fc0 fr0 fd0 fx0 fi0 fn0 fk0] cs0 wt0 lb0 lf0 ss0 rs0 tw0 tc0 td0 si0 tk0 [cm0]]; unfold sc_inv, dok, line_ok in H; dsimp; cbn [cmac] in *;
  destruct H as ((Hwf & Hr & Ht & Hrw & Hrs & Hww & Hws & Hwf2 & Hl & Hw & Htr & Htc & Hpo) & Hcm).

Ltac sym8 :=
  match goal with
  | |- wp _ (w_ptr ?p _) _ => is_var p; destruct p
  | |- wp _ (w_ptr PUninit _) _ => unfold w_ptr; cbn [wp]
  | |- wp _ (w_ptr PNull _) _ => unfold w_ptr; cbn [wp]
  | |- wp _ (sc_send_cipstart _) _ => unfold sc_send_cipstart
  | |- wp _ (sc_connected _) _ => unfold sc_connected, at_handle_disconnect; gs
  | |- wp _ (at_prepare_sending _ _) _ => apply wp_prepare_sending; [wfser | gs; sfits | gs; sfits | gs; intros | gs; intros]
  | |- wp _ (at_send_data _) _ => apply wp_send_data; [wfser | assumption | assumption | gs; intros]
  | |- wp _ (sc_send_ciprcvdata _) _ => apply wp_send_ciprcvdata; [wfser | gs; sfits | assumption | gs; intros | gs; intros]
  | |- wp _ (at_receive _) _ => apply wp_receive; [wfser | assumption | assumption | assumption | gs; intros | gs; intros]
  | |- wp _ (sc_send_mac _ _) _ => apply wp_send_mac; [wfser | assumption | gs; intros | gs; intros]
  | |- wp _ (let (_, _) := (if ?b then _ else _) in _) _ => destruct b eqn:?
  end.
Ltac syms := repeat (gs; first [sym1 | sym8]); gs.
Ltac cases := repeat match goal with |- context [if ?b then _ else _] => destruct b eqn:? end.
Ltac inv_leaf := cases; unfold sc_inv, dok; gs; cbn [sc_rank]; repeat first [apply mac_copy_length | leaf1].

(** The invariant through the state machine. *)
Lemma sc_machine_inv : forall (U : Prop) d, sc_inv d -> rst d = RCOk ->
  (sst d = SCSendCipstart -> not_str (host d) -> U) ->
  wp U (sc_machine d) sc_inv.
Proof.
  intros U d H Hrst HU. open_inv d H. subst rs0.
  unfold sc_machine, at_handle_connect, at_handle_disconnect. gs. destruct ss0; gs.
  all: syms.
  all: try (apply HU; [reflexivity | unfold not_str; congruence]).
  all: inv_leaf.
Qed.

Lemma sc_output_inv : forall P (U : Prop) d, sc_inv d ->
  (sst d = SCSendCipstart -> not_str (host d) -> U) ->
  wp U (sc_output P d) sc_inv.
Proof.
  intros P U d H HU. unfold sc_output. destruct (wait d) eqn:Ew; [exact H|].
  destruct (rst d) eqn:Er; cbn [rc_ok negb]; try exact H.
  open_inv d H. subst. syms.
  all: try (apply sc_machine_inv; [inv_leaf|gs; reflexivity|gs; assumption]).
  all: inv_leaf.
Qed.

(** What follows a state's command: the next state; "OK" is waited for. *)
Definition sc_after (s : ccsend) : ccsend :=
  match s with SCConnecting => SCSendCipstart | SCSendCipstart => SCFinalizeConnect | _ => SCFinalizeDisconnect end.
Definition sc_next (d d' : dv) (s : ccsend) (w : option bytes) (r : ccreply) : Prop := sst d' = s /\ wait d' = w /\ rst d' = r.

(** What the driver may send, and the state it is left in. *)
Definition sc_says (P : plat) (d : dv) (cmd : bytes) (d' : dv) : Prop :=
  (rssi d = INT16_MAX /\ cmd = bs "AT+CSQ" ++ [CR; LF] /\ sc_next d d' (sst d) (Some (bs "OK")) RCCsq) \/
  (mac_request P (cmac (ext d)) = true /\ cmd = bs "AT+CIPSTAMAC" ++ [CR; LF] /\ sc_next d d' (sst d) (Some (bs "OK")) RCReqMac) \/
  (exists c, sc_command (sst d) (host d) (typ d) (port d) = Some c /\ cmd = c ++ [CR; LF] /\
     sc_next d d' (sc_after (sst d)) (Some (bs "OK")) RCOk) \/
  (sst d = SCSendCiprecvdata /\ sc_next d d' SCWaitReceive None RCParseCiprecvdata /\ exists n, cmd = bs "AT+CIPRECVDATA=" ++ dec n ++ [CR; LF] /\
     (0 <= n)%Z /\ (n <= toReceive d)%Z /\ (n <= Z.of_nat (ring_space (rbuf d)))%Z /\ (n <= 1220)%Z /\
     (sched (io d) = [] -> (0 < n)%Z /\ (n + 30 <= Z.of_nat (rxsz (io d)) - Z.of_nat (rxav (io d)))%Z)).
Definition sc_tail (d : dv) : bytes := [CR; LF].

Ltac sayleaf :=
  repeat match goal with H : ?v = PStr _ |- _ => is_var v; subst v end;
  ports; unfold sc_says, sc_tail, sc_command, quoted, text in *; gs;
  match goal with
  | |- wroteb _ _ _ => repeat match goal with H : (_ =? _)%Z = _ |- _ => rewrite H end; repeat rewrite <- app_assoc; assumption
  | |- _ \/ _ =>
    first
    [ left; split; [lia | split; [reflexivity | unfold sc_next; splits; reflexivity]]
    | right; left; split; [assumption | split; [reflexivity | unfold sc_next; splits; reflexivity]]
    | right; right; left; repeat match goal with H : (_ =? _)%Z = _ |- _ => rewrite H end; eexists; split; [reflexivity|];
      (split; [repeat rewrite <- app_assoc; reflexivity | unfold sc_next; splits; reflexivity])
    | right; right; right; split; [reflexivity|]; split; [unfold sc_next; splits; reflexivity|]; eexists; split; [reflexivity|]; splits ]
  end.

(** What the sending half does. *)
Definition sc_insend (s : ccsend) : bool := match s with SCSendDataState => true | _ => false end.

Lemma sc_output_step : forall P (U : Prop) d, sc_inv d ->
  (sst d = SCSendCipstart -> not_str (host d) -> U) ->
  wp U (sc_output P d) (ostep rc_ok (sc_says P) sc_tail sc_insend false d).
Proof.
  intros P U d H HU. unfold sc_output. destruct (wait d) eqn:Ew.
  { apply o_quiet; auto. all: try (unfold keep, keep_line; tauto). apply ioeff_refl. apply H. }
  destruct (rst d) eqn:Er; cbn [rc_ok negb].
  all: try (apply o_quiet; auto; try (unfold keep, keep_line; tauto); apply ioeff_refl; apply H).
  open_inv d H. subst. syms.
  all: try (match goal with |- wp _ (sc_machine _) _ =>
       unfold sc_machine, at_handle_connect, at_handle_disconnect; gs; destruct ss0; gs; syms end).
  all: try (apply HU; [reflexivity | unfold not_str; congruence]).
  all: cases; gs; ostep_leaf; try small.
  all: sayleaf. all: first [request_size | request_still].
Qed.

(** A complete line ends the waiting if it is the expected reply or an error. *)
Definition sc_error_line (d : dv) (L : bytes) : Prop :=
  prefixb (bs "ERROR") L = true \/ (5 <= sc_rank (sst d) /\ prefixb (bs "SEND FAIL") L = true).
Definition sc_clears (d : dv) (L : bytes) : Prop :=
  (exists w, wait d = Some w /\ prefixb w L = true) \/ sc_error_line d L.

Definition sc_parsed (d d' : dv) : Prop :=
  sc_inv d' /\ pkeep d d' /\ (sc_insend (sst d') = true -> sc_insend (sst d) = true) /\ lbuf d' = lbuf d.
Definition sc_waits (d d' : dv) : Prop := wait d' = wait d \/ (wait d' = None /\ sc_clears d (lbuf d)).

Ltac pleaf := unfold sc_parsed, pkeep, keep; splits; gs; [inv_leaf | reflexivity.. | first [discriminate | exact (fun x => x)] | reflexivity].

Ltac wleaf := unfold sc_waits, sc_clears; gs;
  first [left; reflexivity
        |right; split; [reflexivity | first [left; eexists; split; [reflexivity | assumption] | right; assumption]]].

Ltac symj :=
  match goal with
  | |- wp _ (sc_parse_ciprecvdata _ _) _ => apply wp_ciprecvdata; [gs; assumption | gs; intros | gs; intros]
  | |- wp _ (sc_parse_csq _ _) _ => apply wp_sc_csq; [gs; assumption | gs; intros | gs; intros]
  | |- wp _ (sc_parse_mac _) _ => apply wp_sc_mac; [gs; assumption | gs; assumption | gs; intros | gs; intros]
  | |- wp _ (sc_unsolicited _ _) _ => apply wp_sc_unsolicited; [gs; assumption | gs; intros | gs; intros | gs; intros]
  | |- wp _ (let (_, _) := (if ?b then _ else _) in _) _ => destruct b eqn:?
  end.
Ltac symsj := repeat (gs; first [symj | symi | sym1]); gs.

Lemma sc_is_error_eq : forall d : dv, parsed (lbuf d) ->
  sc_is_error d = Ok (prefixb (bs "ERROR") (lbuf d) || ((5 <=? sc_rank (sst d)) && prefixb (bs "SEND FAIL") (lbuf d))).
Proof.
  intros d Hp. unfold sc_is_error.
  assert (Hl : length (lbuf d) = 61) by apply Hp.
  rewrite !lstarts_eq by (first [lfree | (rewrite Hl; cbn; lia)]). cbn [bind]. change (sc_rank SCConnected) with 5.
  destruct (prefixb _ _); [reflexivity|]. destruct (5 <=? _); reflexivity.
Qed.
Lemma sc_error_dec : forall d L, (prefixb (bs "ERROR") L || ((5 <=? sc_rank (sst d)) && prefixb (bs "SEND FAIL") L)) = true <-> sc_error_line d L.
Proof. intros d L. unfold sc_error_line. rewrite orb_true_iff, andb_true_iff, Nat.leb_le. tauto. Qed.

Lemma sc_standard_parsed : forall (U : Prop) d, sc_inv d -> cparsed (lbuf d) -> lbfill d = 0 ->
  wp U (sc_standard_reply d) (fun d' => sc_parsed d d' /\ sc_waits d d' /\ rst d' = rst d).
Proof.
  intros U d H [Hp _] Hf. open_inv d H. subst lf0. unfold sc_standard_reply. gs. destruct wt0; symsi.
  all: cases; (split; [pleaf|split; [wleaf|reflexivity]]).
Qed.

Lemma sc_special_parsed : forall P (U : Prop) d, sc_inv d -> cparsed (lbuf d) -> lbfill d = 0 ->
  wp U (sc_special_reply P d) (fun d' => sc_parsed d d' /\ wait d' = wait d).
Proof.
  intros P U d H Hc Hf. pose proof (proj1 Hc) as Hp. open_inv d H. subst lf0. unfold sc_special_reply. gs. destruct rs0; try destruct wt0; symsj.
  all: cases; (split; [pleaf|reflexivity]).
Qed.

Lemma u64_range : forall z, (0 <= u64 z)%Z.
Proof. intro z. unfold u64. apply Z.mod_pos_bound. reflexivity. Qed.

Lemma sc_unsol_parsed : forall P (U : Prop) d, sc_inv d -> cparsed (lbuf d) -> lbfill d = 0 ->
  wp U (sc_unsolicited P d) (fun d' => sc_parsed d d' /\ wait d' = wait d).
Proof.
  intros P U d H Hp Hf. open_inv d H. subst lf0. symsj. all: split; [pleaf|reflexivity].
Qed.

Lemma sc_parsed_trans : forall a b c, sc_parsed a b -> sc_parsed b c -> sc_parsed a c.
Proof.
  intros a b c (A1 & A2 & A3 & A4) (B1 & B2 & B3 & B4). split; [assumption|].
  split; [exact (pkeep_trans _ _ _ _ _ _ A2 B2)|]. split; [auto|congruence].
Qed.

Lemma sc_parse_parsed : forall P (U : Prop) d, sc_inv d -> cparsed (lbuf d) -> lbfill d = 0 ->
  wp U (sc_parse P d) (fun p => sc_parsed d (snd p) /\ sc_waits d (snd p)).
Proof.
  intros P U d H Hp Hf. unfold sc_parse. rewrite sc_is_error_eq by apply Hp. cbn [bind].
  destruct (_ || _) eqn:He.
  { apply sc_error_dec in He. cbn [wp snd]. split.
    - clear He. open_inv d H. subst lf0. pleaf.
    - right. split; [reflexivity|]. right. exact He. }
  clear He. apply wp_bind.
  eapply wp_mono; [apply sc_standard_parsed; assumption|]. intros d1 (P1 & W1 & R1).
  assert (F1 : lbfill d1 = 0) by (destruct P1 as (_ & K & _); unfold pkeep in K; intuition congruence).
  assert (L1 : lbuf d1 = lbuf d) by apply P1.
  apply wp_bind. eapply wp_mono; [apply sc_special_parsed; try apply P1; try rewrite L1; assumption|].
  intros d2 (P2 & W2).
  pose proof (sc_parsed_trans _ _ _ P1 P2) as P12.
  assert (W12 : sc_waits d d2) by (unfold sc_waits in *; rewrite W2; exact W1).
  destruct (sc_rank SCConnected <=? sc_rank (sst d2)); [|cbn [wp snd]; split; [exact P12|exact W12]].
  assert (F2 : lbfill d2 = 0) by (destruct P2 as (_ & K & _); unfold pkeep in K; intuition congruence).
  assert (L2 : lbuf d2 = lbuf d) by apply P12.
  apply wp_bind. eapply wp_mono; [apply sc_unsol_parsed; try apply P2; try rewrite L2; assumption|].
  intros d3 [P3 W3]. cbn [wp snd]. split; [exact (sc_parsed_trans _ _ _ P12 P3)|].
  unfold sc_waits in *. rewrite W3. exact W12.
Qed.

(** The reading half. *)
Definition sc_handles (P : plat) (d : dv) (ret : bool) (d' : dv) (L : bytes) : Prop :=
  exists r y, length (L ++ NUL :: r) = 61 /\ serial_wf (ser y) /\ sc_inv (line_at L r y d) /\ sc_parse P (line_at L r y d) = Ok (ret, d').

Lemma sc_input_step : forall P (U : Prop) d, sc_inv d ->
  wp U (sc_input P d) (fun p => sc_inv (snd p) /\
    istep sc_insend (fun _ => whole_line) (fun _ => partial_line) sc_clears (sc_handles P d (fst p) (snd p)) d (fst p) (snd p)).
Proof.
  intros P U d H. pose proof H as Hi. destruct Hi as (Hd & Hcm).
  unfold sc_input. eapply wp_bind_eq; [apply (fill_ok _ _ _ d); apply Hd|].
  intros [[] d1] Ef Hf.
  - destruct Hf as [[E F]|[(y & tk & lb & E & _)|(y & tk & lb & r & E & F & HI & Hlb & Htk & Hwl & Hlb2)]];
      inversion E. subst d1. clear E.
    assert (Hp : cparsed lb) by (rewrite Hlb2; apply whole_cparsed; [exact Hwl|rewrite <- Hlb2; exact Hlb]).
    assert (H1 : sc_inv (set_lbfill 0 (set_lbuf lb (set_io y d)))).
    { pose proof (proj1 Hp) as Hp'. clear Ef Hd Hcm Hlb2. open_inv d H. inv_leaf. }
    assert (Hw : wp U (sc_parse P (set_lbfill 0 (set_lbuf lb (set_io y d))))
      (fun p => (sc_parsed (set_lbfill 0 (set_lbuf lb (set_io y d))) (snd p) /\ sc_waits (set_lbfill 0 (set_lbuf lb (set_io y d))) (snd p)) /\
         sc_parse P (set_lbfill 0 (set_lbuf lb (set_io y d))) = Ok p)).
    { apply wp_eq. apply sc_parse_parsed; [exact H1|exact Hp|reflexivity]. }
    eapply wp_mono; [exact Hw|]. clear Hw.
    + intros [ret d2]. cbn [fst snd]. intros (((I2 & (K1 & K2 & K3 & K4) & K5 & _) & W) & Heq). split; [assumption|].
      unfold keep in K2. dsimp. exists (aLine tk (pending d ++ tk)). split; [|intros tk' L' EL; injection EL as _ <-; exists r, y; unfold line_at; rewrite <- Hlb2;
        splits; [assumption|exact (ioeff_wf _ _ _ _ HI)|exact H1|exact Heq]]. eapply (il_line _ _ _ _ _ _ _ tk); unfold keep; splits; try apply K2; auto.
      * rewrite K1. exact HI.
      * unfold sc_waits, sc_clears in W. dsimp. rewrite Hlb2 in W.
        destruct W as [W|[W C]]; [left; exact W|right; split; [exact W|]]. unfold sc_clears.
        assert (PL : forall l, forallb (fun c => negb (Ascii.eqb c NUL)) l = true -> prefixb l ((pending d ++ tk) ++ NUL :: r) = prefixb l (pending d ++ tk)).
        { intros l Hl. apply prefixb_line. intro Hin. rewrite forallb_forall in Hl. apply Hl in Hin. rewrite Ascii.eqb_refl in Hin. discriminate. }
        unfold sc_error_line in *. rewrite (PL (bs "ERROR") eq_refl), (PL (bs "SEND FAIL") eq_refl) in C.
        destruct C as [(w & Hw & C)|C]; [|right; exact C].
        left. exists w. split; [exact Hw|]. rewrite prefixb_line in C; [exact C|].
        destruct Hd as (_ & _ & _ & _ & _ & _ & _ & _ & _ & Hwo & _). rewrite Hw in Hwo. apply Hwo.
  - eapply wp_mono; [apply (input_rest _ _ _ sc_insend sc_clears U (sc_is_receiving (sst d1)) d d1 Hd Hf)|].
    intros [ret d2] (A1 & A2 & A3 & A4 & A5). split; [|destruct A5 as (a & A5 & A6); exists a; split; [exact A5|intros tk L E; destruct (A6 _ _ E)]]. unfold sc_inv. rewrite A4. auto 10.
Qed.

(** Reset: the driver will close the connection, and renews the connection
    attempt if there was one. *)
Definition sc_reconnects (d : dv) : bool :=
  match host d with PStr _ => (1 <=? cs_rank (cst d)) && negb (port d =? 0)%Z | _ => false end.
Lemma sc_reset_inv : forall (U : Prop) d, sc_inv d ->
  wp U (sc_reset d) (fun d' => sc_inv d' /\ rst d' = RCOk /\ wait d' = None /\ toWrite d' = 0%Z /\ toRead d' = 0%Z /\
    toReceive d' = 0%Z /\ keep d d' /\ keep_line d d' /\ cst d' = cst d /\ sst d' = SCSendCipclose /\
    fl d' = fl (if sc_reconnects d then on_connect true (on_reset false d) else on_reset false d) /\
    ext d' = ext d /\ rssi d' = rssi d /\
    exists ev, sstep (io d) (io d') ev /\ clean ev /\ taken ev = [] /\ put ev = [] /\ rxav (io d') = 0 /\ txav (io d') <= txav (io d)).
Proof.
  intros U d H. open_inv d H. unfold sc_reset. apply wp_bind. apply wp_flush_rx; [wfser|].
  gs. intros y ev HS HC HT HP HR HX _ HL. syms. unfold keep, keep_line, sc_reconnects, ip_connect. gs.
  change (cs_rank csIntermediate) with 1. destruct ho0; gs; destruct (1 <=? cs_rank cs0); gs; try destruct (po0 =? 0)%Z; cbn [negb andb snd]; gs.
  all: splits; try reflexivity; try (exists ev; splits; auto; fail); inv_leaf.
Qed.
