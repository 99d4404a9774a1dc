(** The control flow of the CC1352P7 driver. *)
From Coq Require Import String Ascii ZArith List Bool Arith Lia ZifyBool ZifyNat.
From Verif Require Import Base QueueSpec LineSpec SerialSpec Ring RingProofs LineRing LineRingProofs Serial SerialProofs
  SerStep TaskMacros CStr CStrProofs Dev DevProofs SimDev SimProofs SimSpec Sym DrvStep DrvCommon Espressif Cc1352 CcSpec CcProofs.
Import ListNotations.
Local Open Scope nat_scope.
Ltac Zify.zify_post_hook ::= Z.div_mod_to_equations.
Local Notation dv := (dev ccsend ccreply ccx).

(** The reply being parsed belongs to the command last sent (or the port could
    not be reopened meanwhile). *)
Definition sc_sync (d : dv) : Prop :=
  match rst d with
  | RCParseCiprecvdata => sst d = SCWaitReceive \/ sst d = SCSerialError
  | _ => True
  end.

(** The opening has been confirmed ([C]) in every state that lets isConnected()
    answer true. *)
Definition sc_opened : bytes := bs "OK".
Definition sc_conf (C : Prop) (d : dv) : Prop :=
  (sst d = SCFinalizeConnect -> wait d = Some sc_opened \/ fReset (fl d) = true \/ C) /\
  (5 <= sc_rank (sst d) <= 9 \/ rst d = RCParseCiprecvdata -> C) /\ (ip_is_connected d = true -> C) /\
  (3 <= sc_rank (sst d) <= 4 -> ip_is_connected d = false).

(** No payload is expected outside the receiving state, and the line buffer is
    empty while line reading is off. *)
Definition sc_line (d : dv) : Prop :=
  ((0 < toRead d)%Z -> fLine (fl d) = false /\ (sst d = SCReceiving \/ sst d = SCSerialError)) /\ (fLine (fl d) = false -> lbfill d = 0).

(** The host is set once a connection attempt begins. *)
Definition sc_cfg (d : dv) : Prop := 2 <= sc_rank (sst d) <= 3 \/ fConnect (fl d) = true.

Definition sc_octl (d d' : dv) : Prop :=
  (sst d' = sst d \/ In (sst d, sst d') sc_diagram \/ In (sst d, sst d') sc_undocumented) /\
  (sc_cfg d' -> sc_cfg d) /\ (In NUL (cmac (ext d)) -> In NUL (cmac (ext d'))) /\
  (fDisc (fl d) = true -> fDisc (fl d') = true \/ sst d' = SCSendCipclose \/ sst d' = SCFinalizeDisconnect) /\
  (fDisc (fl d') = true -> fDisc (fl d) = true) /\
  (fReset (fl d') = fReset (fl d)) /\ fLock (fl d') = fLock (fl d) /\
  (forall C, sc_conf C d -> sc_conf C d') /\
  (sc_line d -> sc_line d') /\
  (rssi d' = rssi d) /\ (sc_sync d -> sc_sync d') /\
  (sst d = SCSendCipstart -> rst d = RCOk -> forall C, sc_conf C d -> sc_conf False d').

Lemma sc_octl_refl : forall d, sc_octl d d.
Proof. intro d. unfold sc_octl. splits; auto. intros E1 E2 C. unfold sc_conf, sc_opened. rewrite E1, E2. cbn [sc_rank].
  intros (K1 & K2 & K3 & K4). assert (K5 : ip_is_connected d = false) by (apply K4; lia). splits; auto.
  - discriminate.
  - intros [?|?]; [lia|discriminate].
  - congruence.
Qed.

Lemma in_set_nul : forall (b : bytes), In NUL b -> In NUL (list_set b 1 NUL).
Proof. intros [|x [|y b]] H; cbn in *; try exact H. tauto. Qed.

Ltac edge := first [left; reflexivity | right; left; cbn; tauto | right; right; cbn; tauto].
Ltac ors := repeat match goal with H : _ \/ _ |- _ => destruct H end.
Ltac side := first [assumption | reflexivity | lia | discriminate].
Ltac conf_body :=
  let K1 := fresh in let K2 := fresh in let K3 := fresh in let K4 := fresh in
  unfold sc_conf, ip_is_connected, sc_opened; gs; cbn [sc_rank]; intros (K1 & K2 & K3 & K4);
  splits;
  first [ assumption | (left; reflexivity) | (intros; left; reflexivity)
        | solve [intros; ors; first
          [ discriminate | lia | congruence | assumption | reflexivity
          | (apply K2; first [left; side | right; side])
          | (apply K3; side) | (apply K4; side)
          | (destruct K1 as [?|[?|?]]; [side | discriminate | discriminate | first [assumption | right; right; assumption]])
          | (let K5 := fresh in assert (K5 := K4 ltac:(lia)); congruence)
          | (match goal with |- ?f = false => destruct f eqn:?; [exfalso|reflexivity] end; congruence) ]] ].
Ltac conf_leaf :=
  let C := fresh "C" in unfold sc_conf; intro C; conf_body.
Ltac cfg_leaf := unfold sc_cfg; gs; cbn [sc_rank]; first [tauto | solve [intros; ors; first [discriminate | lia | (left; lia) | (right; assumption) | tauto]]].
Ltac line_leaf :=
  let L1 := fresh in let L2 := fresh in
  unfold sc_line; gs; intros [L1 L2]; split; intros;
  first [lia | discriminate | tauto | (destruct L1 as [? [?|?]]; [lia|discriminate|discriminate])].
Ltac octl_leaf :=
  unfold sc_octl; splits; gs;
  [ edge
  | cfg_leaf
  | first [exact (fun x => x) | (intros; apply in_set_nul; assumption)]
  | first [tauto | (intro; discriminate) | (intros; right; left; reflexivity) | (intros; right; right; reflexivity)]
  | first [tauto | (intro; discriminate) | (intros; lia)]
  | first [reflexivity | congruence] | reflexivity
  | conf_leaf
  | line_leaf
  | reflexivity | unfold sc_sync; gs; first [exact (fun x => x) | (intros; exact I) | (intros; left; reflexivity) | (intros [?|?]; discriminate)]
  | first [discriminate | (intros; congruence) | (intros _ _; conf_leaf) | (let E := fresh in intros E _; subst; conf_leaf)] ].

Lemma sc_output_ctl : forall P (U : Prop) d, sc_inv d -> sc_line d ->
  (fReset (fl d) = false) ->
  (sst d = SCSendCipstart -> not_str (host d) -> U) ->
  wp U (sc_output P d) (sc_octl d).
Proof.
  intros P U d H HL HR HU. unfold sc_output. destruct (wait d) eqn:Ew.
  { apply sc_octl_refl. }
  destruct (rst d) eqn:Er; cbn [rc_ok negb].
  all: try (apply sc_octl_refl).
  open_inv d H. subst. syms.
  all: try (match goal with |- wp _ (sc_machine _) _ =>
       unfold sc_machine, at_handle_connect, at_handle_disconnect; gs; destruct ss0; gs; syms end).
  all: try (apply HU; [reflexivity | unfold not_str; congruence]).
  all: clear Hwf Hr Ht Hrw Hrs Hww Hws Hwf2 Hl Hw Hpo Hcm HU; cases; gs; octl_leaf.
Qed.
