(** The control flow of the SIM7x00 driver: reply lines. *)
From Coq Require Import String Ascii ZArith List Bool Arith Lia ZifyBool ZifyNat.
From Verif Require Import Base QueueSpec LineSpec SerialSpec Ring RingProofs LineRing LineRingProofs Serial SerialProofs
  SerStep TaskMacros CStr CStrProofs Dev DevProofs SimDev SimProofs SimSpec Sym DrvStep DrvCommon Sim7x00 Sim7Spec Sim7Proofs Sim7Ctl.
Import ListNotations.
Local Open Scope nat_scope.
Ltac Zify.zify_post_hook ::= Z.div_mod_to_equations.
Local Notation dv := (dev s7send s7reply simx).


(** What a complete reply line does to the control state. *)
Definition s7_revival : list (s7send * s7send) := [(S7SerialError, S7SendNetopen); (S7SerialError, S7Receiving)].
Definition s7_line_in (d : dv) : Prop := fLine (fl d) = true /\ toRead d = 0%Z.

Definition s7_ictl (L : bytes) (d d' : dv) : Prop :=
  (sst d' = sst d \/ In (sst d, sst d') (s7_diagram ++ s7_retry ++ s7_revival)) /\
  (s7_cfg d' -> s7_cfg d) /\
  (fConnect (fl d') = fConnect (fl d) /\ fDisc (fl d') = fDisc (fl d) /\ fLock (fl d') = fLock (fl d)) /\
  (forall C : Prop, (prefixb s7_opened L = true -> C) -> s7_conf C d -> s7_conf C d') /\
  (s7_sync d -> s7_sync d') /\
  (s7_line_in d -> lbfill d' = 0 -> s7_line d') /\
  (cst d' = cst d \/ cst d' = csGeneralError \/ cst d' = csDnsError) /\
  (fReset (fl d') = fReset (fl d) \/ fReset (fl d') = true /\
     ((wait d <> None /\ prefixb (bs "ERROR") L = true) \/ (rst d = R7Cipopen /\ prefixb (bs "+CIPOPEN: 0,") L = true) \/
      (rst d = R7Cdnsgip /\ prefixb (bs "+CDNSGIP: 0") L = true))) /\
  (rssi d' = rssi d \/ rst d = R7Csq /\ prefixb (bs "+CSQ: ") L = true) /\
  (apn (ext d') = apn (ext d) /\ maxrx (ext d') = maxrx (ext d) /\ (ip (ext d') = ip (ext d) \/ rst d = R7Cdnsgip /\ prefixb (bs "+CDNSGIP: 1") L = true) /\
   (idbuf (ext d') = idbuf (ext d) \/ rst d = R7RequestID)) /\
  (fIp (fl d') = fIp (fl d) \/ fIp (fl d') = false /\ prefixb (bs "+IPCLOSE: 0,") L = true) /\
  (fData (fl d') = fData (fl d) \/ fData (fl d') = true /\ prefixb (bs "+CIPRXGET: 1,0") L = true) /\
  (rst d = R7Ciprxget2 -> rst d' = R7Ciprxget2 \/ prefixb (bs "+CIPRXGET: 2,0,") L = true) /\
  (rst d' = rst d \/ rst d' = R7Ok).

Ltac orl := first [left; reflexivity | right; reflexivity | right; left; reflexivity | right; right; reflexivity].
Ltac pre := first [assumption | match goal with H : dns_good _ |- _ => exact (proj1 H) end].
Ltac ictl_leaf :=
  unfold s7_ictl; splits; gs;
  [ first [left; reflexivity | right; cbn; tauto]
  | cfg_leaf | reflexivity | reflexivity | reflexivity
  | let C := fresh in let HO := fresh in unfold s7_conf; intros C HO; conf_body
  | unfold s7_sync; gs; first [exact (fun x => x) | (intros; exact I) | (intros; left; reflexivity) | tauto]
  | let L1 := fresh in let L2 := fresh in
    unfold s7_line; gs; intros [L1 L2] _; split; intros; first [lia | discriminate | reflexivity | (split; [first [reflexivity|discriminate] | left; reflexivity]) | congruence]
  | orl
  | first [left; reflexivity | right; split; [reflexivity|]; first [right; left; split; [reflexivity|pre] | right; right; split; [reflexivity|pre] | left; split; [discriminate|pre]]]
  | first [left; reflexivity | right; split; [reflexivity|pre]]
  | reflexivity | reflexivity
  | first [left; reflexivity | right; split; [reflexivity|pre]]
  | first [left; reflexivity | right; reflexivity]
  | first [left; reflexivity | right; split; [reflexivity|pre]]
  | first [left; reflexivity | right; split; [reflexivity|pre]]
  | first [discriminate | (intros _; first [left; reflexivity | right; pre])]
  | first [left; reflexivity | right; reflexivity] ].

Lemma s7_special_ctl : forall P (U : Prop) d, s7_inv d -> parsed (lbuf d) -> lbfill d = 0 -> s7_line_in d -> s7_sync d ->
  (forall a, rst d = R7Cdnsgip -> dns_good (lbuf d) -> dns_ip (str_body (lbuf d)) = Some a -> 15 < length a -> U) ->
  wp U (s7_special_reply P d) (fun p => s7_ictl (lbuf d) d (snd p)).
Proof.
  intros P U d H Hp Hf HL HS HU. open_inv d H. subst lf0. unfold s7_special_reply. gs. destruct rs0; try destruct wt0; symsi.
  all: try (eapply HU; eauto; fail).
  all: unfold s7_line_in, s7_sync in *; dsimp; destruct HL as (-> & ->); try match type of HS with _ \/ _ => destruct HS as [->| ->] end.
  all: clear Hwf Hr Ht Hrw Hrs Hww Hws Hwf2 Hl Hw Hpo Hip Hid Hmx Hipn Hidn HU.
  all: cases; ictl_leaf.
Qed.
