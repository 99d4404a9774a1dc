(** The control flow of the SIM7x00 driver. *)
From Coq Require Import String Ascii ZArith List Bool Arith Lia ZifyBool ZifyNat.
From Verif Require Import Base QueueSpec LineSpec SerialSpec Ring RingProofs LineRing LineRingProofs Serial SerialProofs
  SerStep TaskMacros CStr CStrProofs Dev DevProofs SimDev SimProofs SimSpec Sym DrvStep DrvCommon Sim7x00 Sim7Spec Sim7Proofs.
Import ListNotations.
Local Open Scope nat_scope.
Ltac Zify.zify_post_hook ::= Z.div_mod_to_equations.
Local Notation dv := (dev s7send s7reply simx).

(** The reply being parsed belongs to the command last sent (or the port could
    not be reopened meanwhile). *)
Definition s7_sync (d : dv) : Prop :=
  match rst d with
  | R7Netopen => sst d = S7SendCiprxget \/ sst d = S7SerialError
  | R7Cdnsgip => sst d = S7SendCipopen \/ sst d = S7SerialError
  | R7Ciprxget2 => sst d = S7WaitReceive \/ sst d = S7SerialError
  | R7Cipopen => sst d = S7FinalizeConnect \/ sst d = S7SerialError
  | _ => True
  end.

(** The opening has been confirmed ([C]) in every state that lets isConnected()
    answer true. *)
Definition s7_opened : bytes := bs "+CIPOPEN: 0,0".
Definition s7_conf (C : Prop) (d : dv) : Prop :=
  (sst d = S7FinalizeConnect -> wait d = Some s7_opened \/ fReset (fl d) = true \/ C) /\
  (12 <= s7_rank (sst d) <= 18 \/ rst d = R7Ciprxget2 -> C) /\ (ip_is_connected d = true -> C) /\
  (4 <= s7_rank (sst d) <= 11 \/ rst d = R7Netopen -> ip_is_connected d = false).

(** No payload is expected outside the receiving state, and the line buffer is
    empty while line reading is off. *)
Definition s7_line (d : dv) : Prop :=
  ((0 < toRead d)%Z -> fLine (fl d) = false /\ (sst d = S7Receiving \/ sst d = S7SerialError)) /\ (fLine (fl d) = false -> lbfill d = 0).

(** The host and the access point name are set once a connection attempt
    begins. *)
Definition s7_cfg (d : dv) : Prop := 3 <= s7_rank (sst d) \/ fConnect (fl d) = true \/ rst d = R7Netopen \/ rst d = R7Ciprxget2.

Definition s7_octl (d d' : dv) : Prop :=
  (sst d' = sst d \/ In (sst d, sst d') s7_diagram \/ In (sst d, sst d') s7_undocumented) /\
  (s7_cfg d' -> s7_cfg d) /\ apn (ext d') = apn (ext d) /\ ip (ext d') = ip (ext d) /\
  (fDisc (fl d) = true -> fDisc (fl d') = true \/ sst d' = S7SendNetclose \/ sst d' = S7FinalizeDisconnect) /\
  (fDisc (fl d') = true -> fDisc (fl d) = true) /\
  (fReset (fl d') = fReset (fl d)) /\ fLock (fl d') = fLock (fl d) /\
  (forall C, s7_conf C d -> s7_conf C d') /\
  (s7_line d -> s7_line d') /\
  (rssi d' = rssi d) /\ (s7_sync d -> s7_sync d') /\
  (sst d = S7SendCipopen -> rst d = R7Ok -> forall C, s7_conf C d -> s7_conf False d').


Lemma s7_octl_refl : forall d, s7_octl d d.
Proof. intro d. unfold s7_octl. splits; auto. intros E1 E2 C. unfold s7_conf, s7_opened. rewrite E1, E2. cbn [s7_rank].
  intros (K1 & K2 & K3 & K4). assert (K5 : ip_is_connected d = false) by (apply K4; left; lia). splits; auto.
  - discriminate.
  - intros [?|?]; [lia|discriminate].
  - congruence.
Qed.

Ltac edge := first [left; reflexivity | right; left; cbn; tauto | right; right; cbn; tauto].
Ltac ors := repeat match goal with H : _ \/ _ |- _ => destruct H end.
Ltac side := first [assumption | reflexivity | lia | discriminate].
Ltac conf_body :=
  let K1 := fresh in let K2 := fresh in let K3 := fresh in let K4 := fresh in
  unfold s7_conf, ip_is_connected, s7_opened; gs; cbn [s7_rank]; intros (K1 & K2 & K3 & K4);
  splits;
  first [ assumption | (left; reflexivity) | (intros; left; reflexivity)
        | solve [intros; ors; first
          [ discriminate | lia | congruence | assumption | reflexivity
          | (apply K2; first [left; side | right; side])
          | (apply K3; side) | (apply K4; first [left; side | right; side])
          | (destruct K1 as [?|[?|?]]; [side | discriminate | discriminate | first [assumption | right; right; assumption]])
          | (let K5 := fresh in assert (K5 := K4 ltac:(left; lia)); congruence)
          | (match goal with |- ?f = false => destruct f eqn:?; [exfalso|reflexivity] end; congruence) ]] ].
Ltac conf_leaf :=
  let C := fresh "C" in unfold s7_conf; intro C; conf_body.
Ltac cfg_leaf := unfold s7_cfg; gs; cbn [s7_rank]; first [tauto | solve [intros; ors; first [discriminate | lia | (left; lia) | (right; left; assumption) | tauto]]].
Ltac line_leaf :=
  let L1 := fresh in let L2 := fresh in
  unfold s7_line; gs; intros [L1 L2]; split; intros;
  first [lia | discriminate | tauto | (destruct L1 as [? [?|?]]; [lia|discriminate|discriminate])].
Ltac octl_leaf :=
  unfold s7_octl; splits; gs;
  [ edge
  | cfg_leaf
  | reflexivity | reflexivity
  | first [tauto | (intro; discriminate) | (intros; right; right; reflexivity) | (intros; right; left; reflexivity)]
  | first [tauto | (intro; discriminate) | (intros; lia)]
  | first [reflexivity | congruence] | reflexivity
  | conf_leaf
  | line_leaf
  | reflexivity | unfold s7_sync; gs; first [exact (fun x => x) | (intros; exact I) | (intros; left; reflexivity) | (intros [?|?]; discriminate)]
  | first [discriminate | (intros; congruence) | (intros _ _; conf_leaf) | (let E := fresh in intros E _; subst; conf_leaf)] ].

Lemma s7_output_ctl : forall (U : Prop) d, s7_inv d -> s7_line d ->
  (fReset (fl d) = false) ->
  (sst d = S7SendCgsockcont -> not_str (apn (ext d)) -> U) ->
  (sst d = S7SendDnsQuery -> not_str (host d) -> U) ->
  wp U (s7_output d) (s7_octl d).
Proof.
  intros U d H HL HR HU1 HU2. unfold s7_output. destruct (wait d) eqn:Ew.
  { apply s7_octl_refl. }
  destruct (rst d) eqn:Er; cbn [r7_ok negb].
  all: try (apply s7_octl_refl).
  open_inv d H. subst. syms.
  all: try (match goal with |- wp _ (s7_machine _) _ =>
       unfold s7_machine, at_handle_connect, at_handle_disconnect; gs; destruct ss0; gs; syms end).
  all: try (apply HU1; [reflexivity | unfold not_str; congruence]).
  all: try (apply HU2; [reflexivity | assumption]).
  all: try nulip.
  all: clear Hwf Hr Ht Hrw Hrs Hww Hws Hwf2 Hl Hw Hpo Hip Hid Hmx Hipn Hidn HU1 HU2; cases; gs; octl_leaf.
Qed.
