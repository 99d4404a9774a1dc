(** The control flow of the SIM800 driver: reply lines. *)
From Coq Require Import String Ascii ZArith List Bool Arith Lia ZifyBool ZifyNat.
From Verif Require Import Base QueueSpec LineSpec SerialSpec Ring RingProofs LineRing LineRingProofs Serial SerialProofs
  SerStep TaskMacros CStr CStrProofs Dev DevProofs SimDev SimProofs SimSpec Sym DrvStep DrvCommon Sim800 Sim8Spec Sim8Proofs Sim8Ctl.
Import ListNotations.
Local Open Scope nat_scope.
Ltac Zify.zify_post_hook ::= Z.div_mod_to_equations.
Local Notation dv := (dev s8send s8reply simx).


(** What a complete reply line does to the control state. *)
Definition s8_revival : list (s8send * s8send) := [(S8SerialError, S8SendCipshut); (S8SerialError, S8Receiving)].
Definition s8_line_in (d : dv) : Prop := fLine (fl d) = true /\ toRead d = 0%Z.

Definition s8_ictl (L : bytes) (d d' : dv) : Prop :=
  (sst d' = sst d \/ In (sst d, sst d') (s8_diagram ++ s8_giveup ++ s8_revival)) /\
  (s8_cfg d' -> s8_cfg d) /\
  (fConnect (fl d') = fConnect (fl d) /\
   (fDisc (fl d') = fDisc (fl d) \/ fDisc (fl d') = false /\ rst d = R8Cipstart /\ sst d' = S8SendCipshut) /\ fLock (fl d') = fLock (fl d)) /\
  (forall C : Prop, (prefixb s8_opened L = true -> C) -> s8_conf C d -> s8_conf C d') /\
  (s8_sync d -> s8_sync d') /\
  (s8_line_in d -> lbfill d' = 0 -> s8_line d') /\
  (cst d' = cst d \/ cst d' = csGeneralError \/ cst d' = csDnsError) /\
  (fReset (fl d') = fReset (fl d) \/ fReset (fl d') = true /\
     (s8_error_line L \/ (rst d = R8Cipstart /\ prefixb (bs "0, CONNECT FAIL") L = true) \/
      (rst d = R8Cdnsgip /\ prefixb (bs "+CDNSGIP: 0") L = true))) /\
  (rssi d' = rssi d \/ rst d = R8Csq /\ prefixb (bs "+CSQ: ") L = true) /\
  (apn (ext d') = apn (ext d) /\ maxrx (ext d') = maxrx (ext d) /\ (ip (ext d') = ip (ext d) \/ rst d = R8Cdnsgip /\ prefixb (bs "+CDNSGIP: 1") L = true) /\
   (idbuf (ext d') = idbuf (ext d) \/ rst d = R8RequestID \/ rst d = R8Csq)) /\
  (fIp (fl d') = fIp (fl d) \/ fIp (fl d') = false /\ prefixb (bs "0, CLOSED") L = true) /\
  (fData (fl d') = fData (fl d) \/ fData (fl d') = true /\ prefixb (bs "+CIPRXGET: 1,0") L = true) /\
  (rst d = R8Ciprxget2 -> rst d' = R8Ciprxget2 \/ prefixb (bs "+CIPRXGET: 2,0,") L = true) /\
  (rst d' = rst d \/ rst d' = R8Ok).

Ltac orl := first [left; reflexivity | right; reflexivity | right; left; reflexivity | right; right; reflexivity].
Ltac pre := first [assumption | match goal with H : dns_good _ |- _ => exact (proj1 H) end].
Ltac ictl_leaf :=
  unfold s8_ictl; splits; gs;
  [ first [left; reflexivity | right; cbn; tauto]
  | cfg_leaf | reflexivity | first [left; reflexivity | right; splits; reflexivity] | reflexivity
  | let C := fresh in let HO := fresh in unfold s8_conf; intros C HO; conf_body
  | unfold s8_sync; gs; first [exact (fun x => x) | (intros; exact I) | (intros; left; reflexivity) | tauto]
  | let L1 := fresh in let L2 := fresh in
    unfold s8_line; gs; intros [L1 L2] _; split; intros; first [lia | discriminate | reflexivity | (split; [first [reflexivity|discriminate] | left; reflexivity]) | congruence]
  | orl
  | first [left; reflexivity | right; split; [reflexivity|]; first [right; left; split; [reflexivity|pre] | right; right; split; [reflexivity|pre] | left; pre]]
  | first [left; reflexivity | right; split; [reflexivity|pre]]
  | reflexivity | reflexivity
  | first [left; reflexivity | right; split; [reflexivity|pre]]
  | orl
  | first [left; reflexivity | right; split; [reflexivity|pre]]
  | first [left; reflexivity | right; split; [reflexivity|pre]]
  | first [discriminate | (intros _; first [left; reflexivity | right; pre])]
  | first [left; reflexivity | right; reflexivity] ].

Lemma s8_special_ctl : forall P (U : Prop) d, s8_inv d -> parsed (lbuf d) -> lbfill d = 0 -> s8_line_in d -> s8_sync d ->
  (forall a, rst d = R8Cdnsgip -> dns_good (lbuf d) -> dns_ip (str_body (lbuf d)) = Some a -> 15 < length a -> U) ->
  wp U (s8_special_reply P d) (fun d2 => s8_ictl (lbuf d) d d2).
Proof.
  intros P U d H Hp Hf HL HS HU. open_inv d H. subst lf0. unfold s8_special_reply, at_handle_disconnect. gs. destruct rs0; try destruct wt0; symsj.
  all: try (eapply HU; eauto; fail).
  all: unfold s8_line_in, s8_sync in *; dsimp; destruct HL as (-> & ->); try match type of HS with _ \/ _ => destruct HS as [->| ->] end.
  all: clear Hwf Hr Ht Hrw Hrs Hww Hws Hwf2 Hl Hw Hpo Hip Hid Hmx Hipn Hidn HU.
  all: cases; ictl_leaf.
Qed.
