(** The control flow of the Espressif driver. *)
From Coq Require Import String Ascii ZArith List Bool Arith Lia ZifyBool ZifyNat.
From Verif Require Import Base QueueSpec LineSpec SerialSpec Ring RingProofs LineRing LineRingProofs Serial SerialProofs
  SerStep TaskMacros CStr CStrProofs Dev DevProofs SimDev SimProofs SimSpec Sym DrvStep DrvCommon Espressif EsSpec EsFill EsProofs.
Import ListNotations.
Local Open Scope nat_scope.
Ltac Zify.zify_post_hook ::= Z.div_mod_to_equations.
Local Notation dv := (dev essend esreply espx).

(** The payload is asked for only in these states. *)
Definition se_receipt (r : esreply) : bool := match r with REWaitCiprecvdata | REParseCiprecvdata => true | _ => false end.
Definition se_sync (d : dv) : Prop :=
  se_receipt (rst d) = true -> sst d = SEWaitReceive \/ sst d = SESerialError \/ sst d = SEFinalizeDisconnect.

(** The opening has been confirmed ([C]) in every state that lets isConnected()
    answer true. *)
Definition se_opened : bytes := bs "OK".
Definition se_conf (C : Prop) (d : dv) : Prop :=
  (sst d = SEFinalizeConnect -> wait d = Some se_opened \/ fReset (fl d) = true \/ C) /\
  (10 <= se_rank (sst d) <= 14 \/ se_receipt (rst d) = true -> C) /\ (ip_is_connected d = true -> C) /\
  (3 <= se_rank (sst d) <= 9 -> ip_is_connected d = false).

(** The line buffer is empty while line reading is off. *)
Definition se_line (d : dv) : Prop := fLine (fl d) = false -> lbfill d = 0.
(** On a TCP connection, no payload is expected outside the receiving state. *)
Definition se_tline (d : dv) : Prop :=
  (0 < toRead d)%Z -> fLine (fl d) = false /\ (sst d = SEReceiving \/ sst d = SESerialError).

(** Host, network and password are set once a connection attempt begins. *)
Definition se_cfg (d : dv) : Prop := 2 <= se_rank (sst d) \/ fConnect (fl d) = true \/ se_receipt (rst d) = true.

Definition se_octl (d d' : dv) : Prop :=
  (sst d' = sst d \/ In (sst d, sst d') se_diagram \/ In (sst d, sst d') se_undocumented) /\
  (se_cfg d' -> se_cfg d) /\
  (ssid (ext d') = ssid (ext d) /\ passwd (ext d') = passwd (ext d) /\ (In NUL (emac (ext d)) -> In NUL (emac (ext d')))) /\
  (fDisc (fl d) = true -> fDisc (fl d') = true \/ sst d' = SESendCipclose \/ sst d' = SESendCwqap) /\
  (fDisc (fl d') = true -> fDisc (fl d) = true) /\
  (fReset (fl d') = fReset (fl d)) /\ fLock (fl d') = fLock (fl d) /\
  (forall C, se_conf C d -> se_conf C d') /\
  (se_line d -> se_line d') /\
  (typ d = TCP -> se_tline d -> se_tline d') /\
  (rssi d' = rssi d) /\ (se_sync d -> se_sync d') /\
  (sst d = SESendCipstart -> rst d = REOk -> forall C, se_conf C d -> se_conf False d').

Lemma se_octl_refl : forall d, se_octl d d.
Proof. intro d. unfold se_octl. splits; auto. intros E1 E2 C. unfold se_conf, se_opened. rewrite E1, E2. cbn [se_rank].
  intros (K1 & K2 & K3 & K4). assert (K5 : ip_is_connected d = false) by (apply K4; lia). splits; auto.
  - discriminate.
  - intros [?|?]; [lia|discriminate].
  - congruence.
Qed.

Lemma in_set_nul : forall (b : bytes), In NUL b -> In NUL (list_set b 1 NUL).
Proof. intros [|x [|y b]] H; cbn in *; try exact H. tauto. Qed.

Ltac edge := first [left; reflexivity | right; left; cbn; tauto | right; right; cbn; tauto].
Ltac ors := repeat match goal with H : _ \/ _ |- _ => destruct H end.
Ltac side := first [assumption | reflexivity | lia | discriminate].
Ltac conf_body :=
  let K1 := fresh in let K2 := fresh in let K3 := fresh in let K4 := fresh in
  unfold se_conf, ip_is_connected, se_opened; gs; cbn [se_rank se_receipt]; intros (K1 & K2 & K3 & K4);
  splits;
  first [ assumption | (left; reflexivity) | (intros; left; reflexivity)
        | solve [intros; ors; first
          [ discriminate | lia | congruence | assumption | reflexivity
          | (apply K2; first [left; side | right; side])
          | (apply K3; side) | (apply K4; side)
          | (destruct K1 as [?|[?|?]]; [side | discriminate | discriminate | first [assumption | right; right; assumption]])
          | (let K5 := fresh in assert (K5 := K4 ltac:(lia)); congruence)
          | (match goal with |- ?f = false => destruct f eqn:?; [exfalso|reflexivity] end; congruence) ]] ].
Ltac conf_leaf :=
  let C := fresh "C" in unfold se_conf; intro C; conf_body.
Ltac cfg_leaf := unfold se_cfg; gs; cbn [se_rank se_receipt]; first [tauto | solve [intros; ors; first [discriminate | lia | (left; lia) | (right; left; assumption) | tauto]]].
Ltac line_leaf :=
  let L2 := fresh in unfold se_line; gs; intros L2; intros; first [lia | discriminate | tauto].
Ltac tline_leaf :=
  let T := fresh in let L1 := fresh in
  unfold se_tline; gs; intros T L1; intros;
  first [lia | discriminate | tauto | (destruct L1 as [? [?|?]]; [lia|discriminate|discriminate]) | congruence].
Ltac octl_leaf :=
  unfold se_octl; splits; gs;
  [ edge
  | cfg_leaf
  | reflexivity | reflexivity
  | first [exact (fun x => x) | (intros; apply in_set_nul; assumption)]
  | first [tauto | (intro; discriminate) | (intros; right; left; reflexivity) | (intros; right; right; reflexivity)]
  | first [tauto | (intro; discriminate) | (intros; lia)]
  | first [reflexivity | congruence] | reflexivity
  | conf_leaf
  | line_leaf
  | tline_leaf
  | reflexivity | unfold se_sync; gs; cbn [se_receipt]; first [exact (fun x => x) | discriminate | (intros; discriminate) | (intros; left; reflexivity)]
  | first [discriminate | (intros; congruence) | (intros _ _; conf_leaf) | (let E := fresh in intros E _; subst; conf_leaf)] ].

Lemma se_output_ctl : forall P (U : Prop) d, se_inv d -> se_line d ->
  (fReset (fl d) = false) ->
  (sst d = SESendCipstart -> not_str (host d) -> U) ->
  (sst d = SESendCwjap -> not_str (ssid (ext d)) \/ not_str (passwd (ext d)) -> U) ->
  wp U (se_output P d) (se_octl d).
Proof.
  intros P U d H HL HR HU HU2. unfold se_output. destruct (wait d) eqn:Ew.
  { apply se_octl_refl. }
  destruct (rst d) eqn:Er; cbn [re_ok negb].
  all: try (apply se_octl_refl).
  open_inv d H. subst. syms.
  all: try (match goal with |- wp _ (se_machine _) _ =>
       unfold se_machine, at_handle_connect, at_handle_disconnect; gs; destruct ss0; gs; syms end).
  all: try (apply HU; [reflexivity | unfold not_str; congruence]).
  all: try (apply HU2; [reflexivity | unfold not_str; first [left; congruence | right; congruence]]).
  all: clear Hwf Hr Ht Hrw Hrs Hww Hws Hwf2 Hl Hw Hpo Hcm HU HU2; cases; gs; octl_leaf.
Qed.
