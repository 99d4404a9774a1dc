(** The control flow of the SIM800 driver. *)
From Coq Require Import String Ascii ZArith List Bool Arith Lia ZifyBool ZifyNat.
From Verif Require Import Base QueueSpec LineSpec SerialSpec Ring RingProofs LineRing LineRingProofs Serial SerialProofs
  SerStep TaskMacros CStr CStrProofs Dev DevProofs SimDev SimProofs SimSpec Sym DrvStep DrvCommon Sim800 Sim8Spec Sim8Proofs.
Import ListNotations.
Local Open Scope nat_scope.
Ltac Zify.zify_post_hook ::= Z.div_mod_to_equations.
Local Notation dv := (dev s8send s8reply simx).

(** The reply being parsed belongs to the command last sent (or the port could
    not be reopened meanwhile). *)
Definition s8_sync (d : dv) : Prop :=
  match rst d with
  | R8Cifsr => sst d = S8SendDnsQuery \/ sst d = S8SerialError
  | R8Cdnsgip => sst d = S8SendCipstart \/ sst d = S8SerialError
  | R8Ciprxget2 => sst d = S8WaitReceive \/ sst d = S8SerialError
  | R8Cipstart => sst d = S8FinalizeConnect \/ sst d = S8SerialError
  | _ => True
  end.

(** The opening has been confirmed ([C]) in every state that lets isConnected()
    answer true. *)
Definition s8_opened : bytes := bs "0, CONNECT OK".
Definition s8_conf (C : Prop) (d : dv) : Prop :=
  (sst d = S8FinalizeConnect -> wait d = Some s8_opened \/ fReset (fl d) = true \/ C) /\
  (12 <= s8_rank (sst d) <= 18 \/ rst d = R8Ciprxget2 -> C) /\ (ip_is_connected d = true -> C) /\
  (3 <= s8_rank (sst d) <= 11 -> ip_is_connected d = false).

(** No payload is expected outside the receiving state, and the line buffer is
    empty while line reading is off. *)
Definition s8_line (d : dv) : Prop :=
  ((0 < toRead d)%Z -> fLine (fl d) = false /\ (sst d = S8Receiving \/ sst d = S8SerialError)) /\ (fLine (fl d) = false -> lbfill d = 0).

(** The host and the access point name are set once a connection attempt
    begins. *)
Definition s8_cfg (d : dv) : Prop := 2 <= s8_rank (sst d) \/ fConnect (fl d) = true \/ rst d = R8Cipstart \/ rst d = R8Ciprxget2.

Definition s8_octl (d d' : dv) : Prop :=
  (sst d' = sst d \/ In (sst d, sst d') s8_diagram \/ In (sst d, sst d') s8_undocumented) /\
  (s8_cfg d' -> s8_cfg d) /\ apn (ext d') = apn (ext d) /\ ip (ext d') = ip (ext d) /\
  (fDisc (fl d) = true -> fDisc (fl d') = true \/ sst d' = S8SendCipclose \/ sst d' = S8SendCipshut \/ sst d' = S8FinalizeDisconnect) /\
  (fDisc (fl d') = true -> fDisc (fl d) = true) /\
  (fReset (fl d') = fReset (fl d)) /\ fLock (fl d') = fLock (fl d) /\
  (forall C, s8_conf C d -> s8_conf C d') /\
  (s8_line d -> s8_line d') /\
  (rssi d' = rssi d) /\ (s8_sync d -> s8_sync d') /\
  (sst d = S8SendCipstart -> rst d = R8Ok -> forall C, s8_conf C d -> s8_conf False d').


Lemma s8_octl_refl : forall d, s8_octl d d.
Proof. intro d. unfold s8_octl. splits; auto. intros E1 E2 C. unfold s8_conf, s8_opened. rewrite E1, E2. cbn [s8_rank].
  intros (K1 & K2 & K3 & K4). assert (K5 : ip_is_connected d = false) by (apply K4; lia). splits; auto.
  - discriminate.
  - intros [?|?]; [lia|discriminate].
  - congruence.
Qed.

Ltac edge := first [left; reflexivity | right; left; cbn; tauto | right; right; cbn; tauto].
Ltac ors := repeat match goal with H : _ \/ _ |- _ => destruct H end.
Ltac side := first [assumption | reflexivity | lia | discriminate].
Ltac conf_body :=
  let K1 := fresh in let K2 := fresh in let K3 := fresh in let K4 := fresh in
  unfold s8_conf, ip_is_connected, s8_opened; gs; cbn [s8_rank]; intros (K1 & K2 & K3 & K4);
  splits;
  first [ assumption | (left; reflexivity) | (intros; left; reflexivity)
        | solve [intros; ors; first
          [ discriminate | lia | congruence | assumption | reflexivity
          | (apply K2; first [left; side | right; side])
          | (apply K3; side) | (apply K4; side)
          | (destruct K1 as [?|[?|?]]; [side | discriminate | discriminate | first [assumption | right; right; assumption]])
          | (let K5 := fresh in assert (K5 := K4 ltac:(lia)); congruence)
          | (match goal with |- ?f = false => destruct f eqn:?; [exfalso|reflexivity] end; congruence) ]] ].
Ltac conf_leaf :=
  let C := fresh "C" in unfold s8_conf; intro C; conf_body.
Ltac cfg_leaf := unfold s8_cfg; gs; cbn [s8_rank]; first [tauto | solve [intros; ors; first [discriminate | lia | (left; lia) | (right; left; assumption) | tauto]]].
Ltac line_leaf :=
  let L1 := fresh in let L2 := fresh in
  unfold s8_line; gs; intros [L1 L2]; split; intros;
  first [lia | discriminate | tauto | (destruct L1 as [? [?|?]]; [lia|discriminate|discriminate])].
Ltac octl_leaf :=
  unfold s8_octl; splits; gs;
  [ edge
  | cfg_leaf
  | reflexivity | reflexivity
  | first [tauto | (intro; discriminate) | (intros; right; left; reflexivity) | (intros; right; right; left; reflexivity) | (intros; right; right; right; reflexivity)]
  | first [tauto | (intro; discriminate) | (intros; lia)]
  | first [reflexivity | congruence] | reflexivity
  | conf_leaf
  | line_leaf
  | reflexivity | unfold s8_sync; gs; first [exact (fun x => x) | (intros; exact I) | (intros; left; reflexivity) | (intros [?|?]; discriminate)]
  | first [discriminate | (intros; congruence) | (intros _ _; conf_leaf) | (let E := fresh in intros E _; subst; conf_leaf)] ].

Lemma s8_output_ctl : forall (U : Prop) d, s8_inv d -> s8_line d ->
  (fReset (fl d) = false) ->
  (sst d = S8SendCstt -> not_str (apn (ext d)) -> U) ->
  (sst d = S8SendDnsQuery -> not_str (host d) -> U) ->
  wp U (s8_output d) (s8_octl d).
Proof.
  intros U d H HL HR HU1 HU2. unfold s8_output. destruct (wait d) eqn:Ew.
  { apply s8_octl_refl. }
  destruct (rst d) eqn:Er; cbn [r8_ok negb].
  all: try (apply s8_octl_refl).
  open_inv d H. subst. syms.
  all: try (match goal with |- wp _ (s8_machine _) _ =>
       unfold s8_machine, at_handle_connect, at_handle_disconnect; gs; destruct ss0; gs; syms end).
  all: try (apply HU1; [reflexivity | unfold not_str; congruence]).
  all: try (apply HU2; [reflexivity | assumption]).
  all: try nulip.
  all: clear Hwf Hr Ht Hrw Hrs Hww Hws Hwf2 Hl Hw Hpo Hip Hid Hmx Hipn Hidn HU1 HU2; cases; gs; octl_leaf.
Qed.
