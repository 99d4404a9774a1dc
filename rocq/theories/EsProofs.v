(** What one run() of the Espressif driver does. *)
From Coq Require Import String Ascii ZArith List Bool Arith Lia ZifyBool ZifyNat.
From Verif Require Import Base QueueSpec LineSpec SerialSpec Ring RingProofs LineRing LineRingProofs Serial SerialProofs
  SerStep TaskMacros CStr CStrProofs Dev DevProofs SimDev SimProofs SimSpec Sym DrvStep DrvCommon Espressif EsSpec EsFill.
Import ListNotations.
Local Open Scope nat_scope.
Ltac Zify.zify_post_hook ::= Z.div_mod_to_equations.

Local Notation dv := (dev essend esreply espx).

Ltac gs ::=
  cbn [io isopen rbuf wbuf typ host port fl cst wait lbuf lbfill sst rst toWrite toReceive toRead rssi tsk ext
       set_io set_isopen set_rbuf set_wbuf set_typ set_host set_port set_fl set_cst set_wait set_lbuf set_lbfill
       set_sst set_rst set_toWrite set_toReceive set_toRead set_rssi set_tsk set_ext
       on_connect on_reset on_data on_disc on_ip on_line on_lock dev_set_delay
       fConnect fReset fData fDisc fIp fLine fLock fst snd negb andb orb
       at_handle_disconnect at_handle_connect flags_line_read
       set_emac emac ssid passwd].

Definition se_inv (d : dv) : Prop := dok d /\ length (emac (ext d)) = 18.

(** ** The parts of the driver *)

Definition ciprcvdata_cmd (n : Z) : bytes := bs "AT+CIPRECVDATA=" ++ dec n ++ lineEndStr.

Lemma wp_send_ciprcvdata : forall (U : Prop) (d : dv) (Q : _ -> Prop), swf d -> fits (rxsz (io d)) -> (0 <= toReceive d)%Z ->
  (forall y, ioeff (io d) y [] [] -> (rxsz (io d) - rxav y <= 30 \/ ring_space (rbuf d) = 0) -> Q (false, set_io y d)) ->
  (forall y1 y n, ioeff (io d) y1 [] [] -> wroteb y1 y (ciprcvdata_cmd n) -> 0 < ring_space (rbuf d) ->
     n = Z.min (Z.min (Z.min (u64 (Z.of_nat (rxsz (io d)) - Z.of_nat (rxav y1) - 30)) (toReceive d))
                      (Z.of_nat (ring_space (rbuf d)))) 2048 ->
     (sched (io d) = [] -> y1 = io d /\ 30 < rxsz (io d) - rxav (io d)) ->
     Q (true, set_io y d)) ->
  wp U (se_send_ciprcvdata d) Q.
Proof.
  intros U d Q H Hf Ht HQ1 HQ2. unfold se_send_ciprcvdata. apply wp_bind. apply wp_rx_request; auto.
  intros y1 n E1 Hsp Hn Hs. pose proof (u64_range (Z.of_nat (rxsz (io d)) - Z.of_nat (rxav y1) - 30)).
  change (Z.of_nat 30) with 30%Z in Hn. unfold ESPRESSIF_MAX_RX in Hn.
  rewrite sprintf6_ok by lia. cbn [bind].
  apply wp_bind. apply wp_w_str; [wfser|]. intros y2 B2.
  apply wp_bind. apply wp_w_str; [dsimp; wfser|]. intros y3 B3.
  apply wp_bind. apply wp_w_str; [dsimp; wfser|]. intros y4 B4. dsimp. cbn [wp].
  specialize (HQ2 y1 y4 n E1). dsimp. apply HQ2; auto. unfold ciprcvdata_cmd.
  eapply wroteb_trans; [exact B2|]. eapply wroteb_trans; [|exact B4].
  rewrite cbody_free in B3 by (apply digits_free, dec_digits). exact B3.
Qed.

Lemma wp_ciprecvdata : forall P (U : Prop) (d : dv) (Q : _ -> Prop), eparsed (lbuf d) ->
  (prefixb (bs "+CIPRECVDATA") (lbuf d) = false -> Q (false, d)) ->
  (forall v, prefixb (bs "+CIPRECVDATA") (lbuf d) = true -> strtol P (skipn 13 (lbuf d)) = Ok v ->
     Q (true, on_line false (set_toRead (u64 (toRead d + i32 v)) (set_toReceive (u64 (toReceive d - i32 v)) d)))) ->
  wp U (se_parse_ciprecvdata P d) Q.
Proof.
  intros P U d Q ([Hlen Hnul] & _ & Ha) HQ1 HQ2. unfold se_parse_ciprecvdata.
  rewrite lstarts_eq by (rewrite ?Hlen; cbn; lia || lfree). cbn [bind].
  destruct (prefixb (bs "+CIPRECVDATA") (lbuf d)) eqn:E; cbn [wp]; auto.
  destruct (strtol_safe P (skipn 13 (lbuf d)) (Ha E)) as [v Ev].
  rewrite Ev. cbn [bind wp]. specialize (HQ2 v eq_refl Ev). dsimp. exact HQ2.
Qed.

Lemma after_commas_ok : forall (U : Prop) n src (Q : option bytes -> Prop), In NUL src ->
  Q None -> (forall s, In NUL s -> after_commas n src = Ok (Some s) -> Q (Some s)) -> wp U (after_commas n src) Q.
Proof.
  intros U n src Q. revert n. induction src as [|c src IH]; intros n Hin H0 H1; [destruct Hin|]. cbn [after_commas] in *. unfold aeqb in *.
  destruct (Ascii.eqb c NUL) eqn:E; [exact H0|]. destruct Hin as [Hin|Hin]; [subst c; discriminate|].
  destruct (Ascii.eqb c ",") eqn:E2; [|apply IH; assumption]. destruct n as [|[|n]]; cbn [wp]; auto.
Qed.

Lemma wp_se_rssi : forall P (U : Prop) lb (K0 : dv) (K : Z -> dv) (Q : _ -> Prop), parsed lb -> prefixb (bs "+CWJAP:") lb = true ->
  Q K0 ->
  (forall s v, after_commas 3 (skipn 7 lb) = Ok (Some s) -> strtol P s = Ok v -> Q (K v)) ->
  wp U (let* o := after_commas 3 (skipn 7 lb) in
        match o with
        | Some src => let* v := strtol P src in Ok (K v)
        | None => Ok K0
        end) Q.
Proof.
  intros P U lb K0 K Q [Hlen Hnul] E HQ1 HQ2. apply wp_bind. apply after_commas_ok.
  - apply (prefix_nul (bs "+CWJAP:")); auto; lfree.
  - exact HQ1.
  - intros s Hs Es. destruct (strtol_safe P s Hs) as [v Ev]. rewrite Ev. cbn [bind wp]. eauto.
Qed.

(** The MAC address buffer after a reply. *)
Definition mac_lit : bytes := bs "+CIPSTAMAC:" ++ [DQ].
Definition mac_copy (lb b : bytes) : bytes :=
  let t := firstn 17 (upto DQ (skipn 12 lb)) in t ++ NUL :: skipn (S (length t)) b.

Lemma wp_se_mac : forall (U : Prop) lb em (K : bytes -> dv) (Q : _ -> Prop), parsed lb -> length em = 18 ->
  Q (K (mac_copy lb em)) ->
  wp U (let* s := copy_until DQ (MACSTRING_MAX_LENGTH - 1) (skipn 12 lb) in
        let* b := wr_list em 0 (s ++ [NUL]) in
        Ok (K b)) Q.
Proof.
  intros U lb em K Q [Hlen Hnul] Hm HQ2.
  rewrite copy_until_ok by (rewrite skipn_length, Hlen; cbn; lia). cbn [bind]. change (MACSTRING_MAX_LENGTH - 1) with 17.
  assert (length (firstn 17 (upto DQ (skipn 12 lb))) <= 17) by apply firstn_le_length.
  rewrite wr_list_ok by (rewrite app_length, Hm; cbn [length]; lia).
  cbn [bind wp Nat.add]. unfold mac_copy in HQ2. rewrite app_length. cbn [length]. rewrite Nat.add_1_r. rewrite <- app_assoc. exact HQ2.
Qed.

Lemma mac_copy_length : forall lb b, length b = 18 -> length (mac_copy lb b) = 18.
Proof. intros lb b H. unfold mac_copy. rewrite app_length. cbn [length]. rewrite skipn_length, H.
  pose proof (firstn_le_length 17 (upto DQ (skipn 12 lb))). lia. Qed.
Lemma mac_copy_nul : forall lb b, In NUL (mac_copy lb b).
Proof. intros lb b. apply in_mid. Qed.

Lemma wp_se_unsolicited : forall P (U : Prop) (d : dv) (Q : _ -> Prop), eparsed (lbuf d) ->
  (forall v, prefixb (bs "+IPD") (lbuf d) = true -> strtol P (skipn 5 (lbuf d)) = Ok v -> (typ d =? TCP)%Z = true ->
     Q (on_data true (set_toReceive (u64 (i32 v)) d))) ->
  (forall v, prefixb (bs "+IPD") (lbuf d) = true -> strtol P (skipn 5 (lbuf d)) = Ok v -> (typ d =? TCP)%Z = false ->
     Q (on_data true (on_line false (set_toRead (u64 (toRead d + i32 v)) d)))) ->
  (prefixb (bs "CLOSED") (lbuf d) = true -> Q (on_ip false d)) ->
  (prefixb (bs "WIFI DISCONNECT") (lbuf d) = true -> Q (set_wait None (set_sst SEFinalizeDisconnect d))) ->
  (prefixb (bs "+IPD") (lbuf d) = false -> prefixb (bs "CLOSED") (lbuf d) = false -> prefixb (bs "WIFI DISCONNECT") (lbuf d) = false -> Q d) ->
  wp U (se_unsolicited P d) Q.
Proof.
  intros P U d Q ([Hlen Hnul] & Ha & _) HQ1 HQ1' HQ2 HQ3 HQ4. unfold se_unsolicited.
  rewrite lmatch_eq by (rewrite ?Hlen; cbn; lia || lfree). change (firstn 4 (bs "+IPD,")) with (bs "+IPD"). cbn [bind].
  destruct (prefixb (bs "+IPD") (lbuf d)) eqn:E.
  - destruct (strtol_safe P (skipn 5 (lbuf d)) (Ha E)) as [v Ev]. rewrite Ev. cbn [bind wp]. destruct (typ d =? TCP)%Z eqn:Et; auto.
  - rewrite lstarts_eq by (rewrite ?Hlen; cbn; lia || lfree). cbn [bind wp]. destruct (prefixb (bs "CLOSED") (lbuf d)) eqn:E2; [cbn [wp]; auto|].
    rewrite lstarts_eq by (rewrite ?Hlen; cbn; lia || lfree). cbn [bind wp]. destruct (prefixb (bs "WIFI DISCONNECT") (lbuf d)); auto.
Qed.

Lemma wp_send_mac : forall P (U : Prop) (d : dv) (Q : _ -> Prop), swf d -> length (emac (ext d)) = 18 ->
  (se_mac_request P (emac (ext d)) && fLine (fl d) = false -> Q (false, d)) ->
  (forall y, se_mac_request P (emac (ext d)) = true -> fLine (fl d) = true -> wroteb (io d) y (bs "AT+CIPSTAMAC?" ++ lineEndStr) ->
     Q (true, set_wait (Some okStr) (set_rst REReqMac (set_io y (set_emac (list_set (emac (ext d)) 1 NUL) d))))) ->
  wp U (se_send_mac P d) Q.
Proof.
  intros P U d Q H Hm HQ1 HQ2. unfold se_send_mac.
  destruct (emac (ext d)) as [|c0 [|c1 b]] eqn:Ec; try discriminate Hm. cbn [rd nth_error bind]. unfold rd. cbn [nth_error bind].
  cbn [se_mac_request] in *. unfold char_is_ff, aeqb.
  destruct (negb (char_signed P) && (nat_of_ascii c1 =? 255) && Ascii.eqb c0 NUL && fLine (fl d)) eqn:E.
  - rewrite wr_ok by (cbn; lia). cbn [bind]. apply wp_bind. apply wp_send_command; [exact H|]. intros y B. cbn [wp].
    apply andb_true_iff in E as [E E4]. apply andb_true_iff in E as [E E3]. apply andb_true_iff in E as [E1 E2].
    apply HQ2; auto. rewrite E1, E2, E3. reflexivity.
  - cbn [wp]. apply HQ1. destruct (negb (char_signed P)), (nat_of_ascii c1 =? 255), (Ascii.eqb c0 NUL), (fLine (fl d)); cbn in *; congruence.
Qed.

Ltac open_inv d H :=
  destruct d as [io0 op0 rb0 wb0 ty0 ho0 po0 [fc0 fr0 fd0 fx0 fi0 fn0 fk0] cs0 wt0 lb0 lf0 ss0 rs0 tw0 tc0 td0 si0 tk0 [id0 pw0 em0]]; unfold se_inv, dok, line_ok in H; dsimp; cbn [emac ssid passwd] in *;
  destruct H as ((Hwf & Hr & Ht & Hrw & Hrs & Hww & Hws & Hwf2 & Hl & Hw & Htr & Htc & Hpo) & Hcm).

Ltac sym8 :=
  match goal with
  | |- wp _ (w_ptr ?p _) _ => is_var p; destruct p
  | |- wp _ (w_ptr PUninit _) _ => unfold w_ptr; cbn [wp]
  | |- wp _ (w_ptr PNull _) _ => unfold w_ptr; cbn [wp]
  | |- wp _ (w_ptr_len ?p _) _ => is_var p; destruct p
  | |- wp _ (w_ptr_len PUninit _) _ => unfold w_ptr_len; cbn [wp]
  | |- wp _ (w_ptr_len PNull _) _ => unfold w_ptr_len; cbn [wp]
  | |- wp _ (se_send_cipstart _) _ => unfold se_send_cipstart
  | |- wp _ (se_connected _) _ => unfold se_connected, at_handle_disconnect; gs
  | |- wp _ (at_prepare_sending _ _) _ => apply wp_prepare_sending; [wfser | gs; sfits | gs; sfits | gs; intros | gs; intros]
  | |- wp _ (at_send_data _) _ => apply wp_send_data; [wfser | assumption | assumption | gs; intros]
  | |- wp _ (se_send_ciprcvdata _) _ => apply wp_send_ciprcvdata; [wfser | gs; sfits | assumption | gs; intros | gs; intros]
  | |- wp _ (at_receive _) _ => apply wp_receive; [wfser | assumption | assumption | assumption | gs; intros | gs; intros]
  | |- wp _ (se_send_mac _ _) _ => apply wp_send_mac; [wfser | assumption | gs; intros | gs; intros]
  | |- wp _ (let (_, _) := (if ?b then _ else _) in _) _ => destruct b eqn:?
  end.
Ltac syms := repeat (gs; first [sym1 | sym8]); gs.
Ltac cases := repeat match goal with |- context [if ?b then _ else _] => destruct b eqn:? end.
Ltac inv_leaf := cases; unfold se_inv, dok; gs; cbn [se_rank]; repeat first [apply mac_copy_length | leaf1].

(** The invariant through the state machine. *)
Lemma se_machine_inv : forall (U : Prop) d, se_inv d -> rst d = REOk ->
  (sst d = SESendCipstart -> not_str (host d) -> U) ->
  (sst d = SESendCwjap -> not_str (ssid (ext d)) \/ not_str (passwd (ext d)) -> U) ->
  wp U (se_machine d) se_inv.
Proof.
  intros U d H Hrst HU HU2. open_inv d H. subst rs0.
  unfold se_machine, at_handle_connect, at_handle_disconnect. gs. destruct ss0; gs.
  all: syms.
  all: try (apply HU; [reflexivity | unfold not_str; congruence]).
  all: try (apply HU2; [reflexivity | unfold not_str; first [left; congruence | right; congruence]]).
  all: inv_leaf.
Qed.

Lemma se_output_inv : forall P (U : Prop) d, se_inv d ->
  (sst d = SESendCipstart -> not_str (host d) -> U) ->
  (sst d = SESendCwjap -> not_str (ssid (ext d)) \/ not_str (passwd (ext d)) -> U) ->
  wp U (se_output P d) se_inv.
Proof.
  intros P U d H HU HU2. unfold se_output. destruct (wait d) eqn:Ew; [exact H|].
  destruct (rst d) eqn:Er; cbn [re_ok negb]; try exact H.
  open_inv d H. subst. syms.
  all: try (apply se_machine_inv; [inv_leaf|gs; reflexivity|gs; assumption..]).
  all: inv_leaf.
Qed.

(** What follows a state's command: the next state and the reply waited for. *)
Definition se_after (s : essend) : essend :=
  match s with
  | SEConnecting => SESendCwmode | SESendCwmode => SESendCwjap | SESendCwjap => SESendCipmux | SESendCipmux => SESendCiprecvmode
  | SESendCiprecvmode => SESendCipmode | SESendCipmode => SESendCipstart | SESendCipstart => SEFinalizeConnect
  | SESendCipclose => SESendCwqap | _ => SEFinalizeDisconnect
  end.
Definition se_expects (s : essend) : bytes := match s with SESendCwqap => bs "WIFI DISCONNECT" | _ => bs "OK" end.
Definition se_next (d d' : dv) (s : essend) (w : option bytes) (r : esreply) : Prop := sst d' = s /\ wait d' = w /\ rst d' = r.

(** What the driver may send, and the state it is left in. *)
Definition se_says (P : plat) (d : dv) (cmd : bytes) (d' : dv) : Prop :=
  (rssi d = INT16_MAX /\ cmd = bs "AT+CWJAP?" ++ [CR; LF] /\ se_next d d' (sst d) (Some (bs "OK")) RERssi) \/
  (se_mac_request P (emac (ext d)) = true /\ cmd = bs "AT+CIPSTAMAC?" ++ [CR; LF] /\ se_next d d' (sst d) (Some (bs "OK")) REReqMac) \/
  (exists c, se_command (sst d) (ssid (ext d)) (passwd (ext d)) (host d) (typ d) (port d) = Some c /\ cmd = c ++ [CR; LF] /\
     se_next d d' (se_after (sst d)) (Some (se_expects (sst d))) REOk) \/
  (sst d = SESendCiprecvdata /\ se_next d d' SEWaitReceive None REWaitCiprecvdata /\ exists n, cmd = bs "AT+CIPRECVDATA=" ++ dec n ++ [CR; LF] /\
     (0 <= n)%Z /\ (n <= toReceive d)%Z /\ (n <= Z.of_nat (ring_space (rbuf d)))%Z /\ (n <= 2048)%Z /\
     (sched (io d) = [] -> (0 < n)%Z /\ (n + 30 <= Z.of_nat (rxsz (io d)) - Z.of_nat (rxav (io d)))%Z)).
Definition se_tail (d : dv) : bytes := [CR; LF].

Ltac sayleaf :=
  repeat match goal with H : ?v = PStr _ |- _ => is_var v; subst v end;
  ports; unfold se_says, se_tail, se_command, se_type, quoted, text in *; gs;
  match goal with
  | |- wroteb _ _ _ => repeat match goal with H : (_ =? _)%Z = _ |- _ => rewrite H end; repeat rewrite <- app_assoc; assumption
  | |- _ \/ _ =>
    first
    [ left; split; [lia | split; [reflexivity | unfold se_next; splits; reflexivity]]
    | right; left; split; [assumption | split; [reflexivity | unfold se_next; splits; reflexivity]]
    | right; right; left; repeat match goal with H : (_ =? _)%Z = _ |- _ => rewrite H end; cbn [se_after se_expects]; cases; (eexists; split; [reflexivity|];
      (split; [repeat rewrite <- app_assoc; reflexivity | unfold se_next; splits; reflexivity]))
    | right; right; right; split; [reflexivity|]; split; [unfold se_next; splits; reflexivity|]; eexists; split; [reflexivity|]; splits ]
  end.

(** What the sending half does. *)
Definition se_insend (s : essend) : bool := match s with SESendDataState => true | _ => false end.

Lemma se_output_step : forall P (U : Prop) d, se_inv d ->
  (sst d = SESendCipstart -> not_str (host d) -> U) ->
  (sst d = SESendCwjap -> not_str (ssid (ext d)) \/ not_str (passwd (ext d)) -> U) ->
  wp U (se_output P d) (ostep re_ok (se_says P) se_tail se_insend false d).
Proof.
  intros P U d H HU HU2. unfold se_output. destruct (wait d) eqn:Ew.
  { apply o_quiet; auto. all: try (unfold keep, keep_line; tauto). apply ioeff_refl. apply H. }
  destruct (rst d) eqn:Er; cbn [re_ok negb].
  all: try (apply o_quiet; auto; try (unfold keep, keep_line; tauto); apply ioeff_refl; apply H).
  open_inv d H. subst. syms.
  all: try (match goal with |- wp _ (se_machine _) _ =>
       unfold se_machine, at_handle_connect, at_handle_disconnect; gs; destruct ss0; gs; syms end).
  all: try (apply HU; [reflexivity | unfold not_str; congruence]).
  all: try (apply HU2; [reflexivity | unfold not_str; first [left; congruence | right; congruence]]).
  all: cases; gs; ostep_leaf; try small.
  all: sayleaf. all: first [request_size | request_still].
Qed.

(** A complete line ends the waiting if it is the expected reply, an error, or
    the notice that the network was lost. *)
Definition se_error_line (L : bytes) : Prop := prefixb (bs "ERROR") L = true \/ prefixb (bs "FAIL") L = true.
Definition se_send_fail (d : dv) (L : bytes) : Prop := sst d = SEConnected /\ prefixb (bs "SEND FAIL") L = true.
Definition se_lost_line (d : dv) (L : bytes) : Prop := 10 <= se_rank (sst d) /\ prefixb (bs "WIFI DISCONNECT") L = true.
Definition se_clears (d : dv) (L : bytes) : Prop :=
  (exists w, wait d = Some w /\ prefixb w L = true) \/ se_error_line L \/ se_send_fail d L \/ se_lost_line d L.

Definition se_parsed (d d' : dv) : Prop :=
  se_inv d' /\ pkeep d d' /\ (se_insend (sst d') = true -> se_insend (sst d) = true) /\ lbuf d' = lbuf d.
Definition se_waits (d d' : dv) : Prop := wait d' = wait d \/ (wait d' = None /\ se_clears d (lbuf d)).

Ltac pleaf := unfold se_parsed, pkeep, keep; splits; gs; [inv_leaf | reflexivity.. | first [discriminate | exact (fun x => x)] | reflexivity].

Ltac wleaf := unfold se_waits, se_clears; gs;
  first [left; reflexivity
        |right; split; [reflexivity | first [left; eexists; split; [reflexivity | assumption] | right; assumption]]].

Ltac symj :=
  match goal with
  | |- wp _ (se_parse_ciprecvdata _ _) _ => apply wp_ciprecvdata; [gs; assumption | gs; intros | gs; intros]
  | |- wp _ (bind (after_commas _ (skipn _ _)) _) _ => apply wp_se_rssi; [gs; assumption | gs; assumption | gs | gs; intros]
  | |- wp _ (bind (copy_until _ _ (skipn _ _)) _) _ => apply wp_se_mac; [gs; assumption | gs; assumption | gs]
  | |- wp _ (se_unsolicited _ _) _ => apply wp_se_unsolicited; [gs; assumption | gs; intros | gs; intros | gs; intros | gs; intros | gs; intros]
  | |- wp _ (let (_, _) := (if ?b then _ else _) in _) _ => destruct b eqn:?
  end.
Ltac symsj := repeat (gs; first [symj | symi | sym1]); gs.

(** The error handling. *)
Definition se_is_error (L : bytes) : bool := prefixb (bs "ERROR") L || prefixb (bs "FAIL") L.
Lemma se_error_dec : forall L, se_is_error L = true <-> se_error_line L.
Proof. intro L. unfold se_is_error, se_error_line. apply orb_true_iff. Qed.

Lemma se_errors_eq : forall d : dv, parsed (lbuf d) -> se_errors d =
  Ok (if se_is_error (lbuf d) then (true, set_wait None (set_cst csGeneralError (on_reset true d)))
      else if se_is_connected (sst d) && prefixb (bs "SEND FAIL") (lbuf d) then (false, set_wait None (set_cst csGeneralError d))
      else (false, d)).
Proof.
  intros d Hp. unfold se_errors, se_is_error.
  assert (Hl : length (lbuf d) = 61) by apply Hp.
  rewrite !lstarts_eq by (first [lfree | (rewrite Hl; cbn; lia)]). cbn [bind].
  destruct (prefixb (bs "ERROR") (lbuf d)); [reflexivity|]. cbn [bind orb]. destruct (prefixb (bs "FAIL") (lbuf d)); [reflexivity|].
  destruct (se_is_connected (sst d)); [|reflexivity]. destruct (prefixb _ _); reflexivity.
Qed.

(** The device after the error handling, if run() goes on. *)
Definition se_noerr (d : dv) : dv :=
  if se_is_connected (sst d) && prefixb (bs "SEND FAIL") (lbuf d) then set_wait None (set_cst csGeneralError d) else d.

Lemma se_parse_eq : forall P d, parsed (lbuf d) -> se_parse P d =
  if se_is_error (lbuf d) then Ok (true, set_wait None (set_cst csGeneralError (on_reset true d)))
  else let* d := se_standard_reply (se_noerr d) in
    let* d := se_special_reply P d in
    if se_rank SEConnected <=? se_rank (sst d)
    then let* d := se_unsolicited P d in Ok (false, d)
    else Ok (false, d).
Proof.
  intros P d Hp. unfold se_parse, se_noerr. rewrite se_errors_eq by assumption. cbn [bind].
  destruct (se_is_error (lbuf d)); [reflexivity|]. destruct (_ && _); reflexivity.
Qed.

Lemma se_connected_is : forall s, se_is_connected s = true -> s = SEConnected.
Proof. intros []; discriminate || reflexivity. Qed.

Lemma se_noerr_parsed : forall d, se_inv d -> lbfill d = 0 ->
  se_parsed d (se_noerr d) /\ se_waits d (se_noerr d) /\ rst (se_noerr d) = rst d /\ sst (se_noerr d) = sst d.
Proof.
  intros d H Hf. unfold se_noerr. destruct (_ && _) eqn:E.
  - apply andb_true_iff in E as [E1 E2]. split; [clear E1 E2; open_inv d H; subst lf0; pleaf|]. split; [|split; reflexivity].
    right. split; [reflexivity|]. right. right. left. split; [apply se_connected_is; exact E1|exact E2].
  - split; [open_inv d H; subst lf0; pleaf|]. split; [left; reflexivity|]. split; reflexivity.
Qed.

Lemma se_standard_parsed : forall (U : Prop) d, se_inv d -> eparsed (lbuf d) -> lbfill d = 0 ->
  wp U (se_standard_reply d) (fun d' => se_parsed d d' /\ se_waits d d' /\ rst d' = rst d /\ sst d' = sst d).
Proof.
  intros U d H [Hp _] Hf. open_inv d H. subst lf0. unfold se_standard_reply. gs. destruct wt0; symsi.
  all: cases; (split; [pleaf|split; [wleaf|split; reflexivity]]).
Qed.

Lemma se_special_parsed : forall P (U : Prop) d, se_inv d -> eparsed (lbuf d) -> lbfill d = 0 ->
  wp U (se_special_reply P d) (fun d' => se_parsed d d' /\ wait d' = wait d /\ (sst d' = sst d \/ prefixb (bs "+CIPRECVDATA") (lbuf d) = true)).
Proof.
  intros P U d H Hc Hf. pose proof (proj1 Hc) as Hp. open_inv d H. subst lf0. unfold se_special_reply. gs. destruct rs0; try destruct wt0; symsj.
  all: cases; (split; [pleaf|split; [reflexivity|first [left; reflexivity | right; assumption]]]).
Qed.

Lemma se_unsol_parsed : forall P (U : Prop) d, se_inv d -> eparsed (lbuf d) -> lbfill d = 0 ->
  wp U (se_unsolicited P d) (fun d' => se_parsed d d' /\ (wait d' = wait d \/ wait d' = None /\ prefixb (bs "WIFI DISCONNECT") (lbuf d) = true)).
Proof.
  intros P U d H Hp Hf. open_inv d H. subst lf0. symsj. all: split; [pleaf|first [left; reflexivity | right; split; [reflexivity|assumption]]].
Qed.

Lemma se_parsed_trans : forall a b c, se_parsed a b -> se_parsed b c -> se_parsed a c.
Proof.
  intros a b c (A1 & A2 & A3 & A4) (B1 & B2 & B3 & B4). split; [assumption|].
  split; [exact (pkeep_trans _ _ _ _ _ _ A2 B2)|]. split; [auto|congruence].
Qed.

Lemma no_prefix2 : forall a b l, prefixb a l = true -> prefixb a b || prefixb b a = false -> prefixb b l = true -> False.
Proof. intros a b l H1 H2 H3. rewrite (prefix_clash a b l H1 H3) in H2. discriminate. Qed.

Lemma se_parse_parsed : forall P (U : Prop) d, se_inv d -> eparsed (lbuf d) -> lbfill d = 0 ->
  wp U (se_parse P d) (fun p => se_parsed d (snd p) /\ se_waits d (snd p)).
Proof.
  intros P U d H Hp Hf. rewrite se_parse_eq by apply Hp.
  destruct (se_is_error (lbuf d)) eqn:He.
  { apply se_error_dec in He. cbn [wp snd]. split.
    - clear He. open_inv d H. subst lf0. pleaf.
    - right. split; [reflexivity|]. right. left. exact He. }
  clear He. destruct (se_noerr_parsed d H Hf) as (P0 & W0 & R0 & S0).
  set (d0 := se_noerr d) in *. clearbody d0.
  assert (F0 : lbfill d0 = 0) by (destruct P0 as (_ & K & _); unfold pkeep in K; intuition congruence).
  assert (L0 : lbuf d0 = lbuf d) by apply P0.
  assert (C0 : forall d', se_waits d0 d' -> se_waits d d').
  { intros d' [W|[W C]].
    - unfold se_waits in *. rewrite W. exact W0.
    - right. split; [exact W|]. unfold se_clears, se_send_fail, se_lost_line in *. rewrite S0, L0 in C.
      destruct C as [(w & Hw & Hm)|C]; [|auto]. destruct W0 as [W0|[W0 _]]; [|congruence]. left. exists w. split; congruence. }
  apply wp_bind. eapply wp_mono; [apply se_standard_parsed; try rewrite L0; try apply P0; assumption|]. intros d1 (P1 & W1 & R1 & S1).
  assert (F1 : lbfill d1 = 0) by (destruct P1 as (_ & K & _); unfold pkeep in K; intuition congruence).
  assert (L1 : lbuf d1 = lbuf d) by (transitivity (lbuf d0); [apply P1|exact L0]).
  pose proof (se_parsed_trans _ _ _ P0 P1) as P01. apply C0 in W1.
  apply wp_bind. eapply wp_mono; [apply se_special_parsed; try apply P1; try rewrite L1; assumption|].
  intros d2 (P2 & W2 & S2).
  pose proof (se_parsed_trans _ _ _ P01 P2) as P12.
  assert (W12 : se_waits d d2) by (unfold se_waits in *; rewrite W2; exact W1).
  destruct (se_rank SEConnected <=? se_rank (sst d2)) eqn:Er; [|cbn [wp snd]; split; [exact P12|exact W12]].
  assert (F2 : lbfill d2 = 0) by (destruct P2 as (_ & K & _); unfold pkeep in K; intuition congruence).
  assert (L2 : lbuf d2 = lbuf d) by apply P12.
  apply wp_bind. eapply wp_mono; [apply se_unsol_parsed; try apply P2; try rewrite L2; assumption|].
  intros d3 [P3 W3]. cbn [wp snd]. split; [exact (se_parsed_trans _ _ _ P12 P3)|].
  destruct W3 as [W3|[W3 E3]]; [unfold se_waits in *; rewrite W3; exact W12|].
  right. split; [exact W3|]. right. right. right. rewrite L2 in E3. split; [|exact E3].
  apply Nat.leb_le in Er. destruct S2 as [S2|S2]; [rewrite S2, S1, S0 in Er; exact Er|].
  rewrite L1 in S2. exfalso. exact (no_prefix2 _ (bs "WIFI DISCONNECT") _ S2 eq_refl E3).
Qed.

(** The reading half. *)
Definition se_handles (P : plat) (d : dv) (ret : bool) (d' : dv) (L : bytes) : Prop :=
  exists r y, length (L ++ NUL :: r) = 61 /\ serial_wf (ser y) /\ se_inv (line_at L r y (se_took L d)) /\
    se_parse P (line_at L r y (se_took L d)) = Ok (ret, d').

Lemma se_took_inv : forall L d, se_inv d -> se_inv (se_took L d).
Proof. intros L d H. unfold se_took. destruct (_ || _); [exact H|]. exact H. Qed.
Lemma se_took_eq : forall L d, se_took L d = d \/ (rst d = REWaitCiprecvdata /\ se_header (rst d) L = true /\ se_took L d = set_rst REParseCiprecvdata d) \/
  se_ends (typ d) (rst d) L = false.
Proof.
  intros L d. unfold se_took, se_ends. destruct (_ || _) eqn:E; [left; reflexivity|]. right.
  destruct (se_header (rst d) L) eqn:Eh; [left|right; reflexivity]. splits; auto. unfold se_header in Eh. destruct (rst d); try discriminate. reflexivity.
Qed.

(** What a completed line leaves as it was. *)
Lemma se_took_keep : forall L d, io (se_took L d) = io d /\ keep d (se_took L d) /\ toWrite (se_took L d) = toWrite d /\ wait (se_took L d) = wait d /\
  sst (se_took L d) = sst d /\ fl (se_took L d) = fl d /\ cst (se_took L d) = cst d /\ ext (se_took L d) = ext d /\ rssi (se_took L d) = rssi d /\
  toRead (se_took L d) = toRead d /\ toReceive (se_took L d) = toReceive d /\ lbfill (se_took L d) = lbfill d.
Proof. intros L d. unfold se_took, keep. destruct (_ || _); splits; reflexivity. Qed.

Lemma se_input_step : forall P (U : Prop) d, se_inv d ->
  wp U (se_input P d) (fun p => se_inv (snd p) /\
    istep se_insend se_whole (fun _ => partial_line) se_clears (se_handles P d (fst p) (snd p)) d (fst p) (snd p)).
Proof.
  intros P U d H. pose proof H as Hi. destruct Hi as (Hd & Hcm).
  unfold se_input. eapply wp_bind_eq; [apply (se_fill_ok d); apply Hd|].
  intros [[] d1] Ef Hf.
  - destruct Hf as [[E _]|(y & tk & lb & r & E & F & HI & Hlb & Htk & Hwl & Hlb2)]; [discriminate|].
    inversion E. subst d1. clear E. set (L := pending d ++ tk) in *.
    assert (Hp : eparsed lb) by (rewrite Hlb2; eapply se_whole_parsed; [exact Hwl|rewrite <- Hlb2; exact Hlb]).
    destruct (se_took_keep L d) as (T1 & T2 & T3 & T4 & T5 & T6 & _).
    pose proof (se_took_inv L d H) as Ht. set (dt := se_took L d) in *.
    assert (H1 : se_inv (set_lbfill 0 (set_lbuf lb (set_io y dt)))).
    { pose proof (proj1 Hp) as Hp'. rewrite <- T1 in HI. clearbody dt. clear - Ht HI Hp'. open_inv dt Ht. inv_leaf. }
    assert (Hw : wp U (se_parse P (set_lbfill 0 (set_lbuf lb (set_io y dt))))
      (fun p => (se_parsed (set_lbfill 0 (set_lbuf lb (set_io y dt))) (snd p) /\ se_waits (set_lbfill 0 (set_lbuf lb (set_io y dt))) (snd p)) /\
         se_parse P (set_lbfill 0 (set_lbuf lb (set_io y dt))) = Ok p)).
    { apply wp_eq. apply se_parse_parsed; [exact H1|exact Hp|reflexivity]. }
    eapply wp_mono; [exact Hw|]. clear Hw.
    intros [ret d2]. cbn [fst snd]. intros (((I2 & (K1 & K2 & K3 & K4) & K5 & _) & W) & Heq). split; [assumption|].
    unfold keep in K2, T2. unfold se_waits, se_clears, se_send_fail, se_lost_line in W. dsimp. rewrite T4, T5, Hlb2 in W. rewrite T5 in K5. rewrite T3 in K3.
    exists (aLine tk L). split; [|intros tk' L' EL; injection EL as _ <-; exists r, y; unfold line_at; rewrite <- Hlb2;
      splits; [assumption|exact (ioeff_wf _ _ _ _ HI)|exact H1|exact Heq]].
    eapply (il_line _ _ _ _ _ _ _ tk); unfold keep; splits; try (rewrite K1; exact HI); auto; try (intuition congruence).
    + destruct W as [W|[W C]]; [left; exact W|right; split; [exact W|]]. unfold se_clears, se_error_line, se_send_fail, se_lost_line in *.
      assert (PL : forall l, forallb (fun c => negb (Ascii.eqb c NUL)) l = true -> prefixb l (L ++ NUL :: r) = prefixb l L).
      { intros l Hl. apply prefixb_line. intro Hin. rewrite forallb_forall in Hl. apply Hl in Hin. rewrite Ascii.eqb_refl in Hin. discriminate. }
      rewrite (PL (bs "ERROR") eq_refl), (PL (bs "FAIL") eq_refl), (PL (bs "SEND FAIL") eq_refl), (PL (bs "WIFI DISCONNECT") eq_refl) in C.
      destruct C as [(w & Hw & C)|C]; [|right; exact C].
      left. exists w. split; [exact Hw|]. rewrite prefixb_line in C; [exact C|].
      destruct Hd as (_ & _ & _ & _ & _ & _ & _ & _ & _ & Hwo & _). rewrite Hw in Hwo. apply Hwo.
  - destruct Hf as [[_ Hf]|(y & tk & lb & r & E & _)]; [|discriminate].
    eapply wp_mono; [apply (input_rest _ _ _ se_insend se_clears U (se_is_receiving (sst d1)) d d1 Hd Hf)|].
    intros [ret d2] (A1 & A2 & A3 & A4 & A5). split; [unfold se_inv; rewrite A4; auto 10|]. eapply istep_noline. exact A5.
Qed.

(** Reset. *)
Definition se_reset_state (d : dv) : essend :=
  if (2 <=? se_rank (sst d)) && (se_rank (sst d) <=? 14) && negb (fDisc (fl d)) then SEConnecting else SENotConnected.
Lemma se_reset_inv : forall (U : Prop) d, se_inv d ->
  wp U (se_reset d) (fun d' => se_inv d' /\ rst d' = REOk /\ wait d' = Some (bs "ready") /\ toWrite d' = 0%Z /\ toRead d' = 0%Z /\
    toReceive d' = 0%Z /\ fl d' = flags_line_read /\ keep d d' /\ keep_line d d' /\ cst d' = cst d /\
    sst d' = se_reset_state d /\ ext d' = ext d /\ rssi d' = rssi d /\
    exists y ev, sstep (io d) y ev /\ clean ev /\ taken ev = [] /\ put ev = [] /\ rxav y = 0 /\ txav y <= txav (io d) /\
      wroteb y (io d') (bs "AT+RST" ++ [CR; LF])).
Proof.
  intros U d H. open_inv d H. unfold se_reset. apply wp_bind. apply wp_flush_rx; [wfser|].
  gs. intros y ev HS HC HT HP HR HX _ HL. syms. unfold keep, keep_line, se_reset_state. gs.
  splits; try reflexivity.
  - destruct (_ && _); inv_leaf.
  - exists y, ev. splits; auto. exact (wroteb_trans _ _ _ _ _ W W0).
Qed.
