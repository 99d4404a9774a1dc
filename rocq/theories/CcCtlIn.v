(** The control flow of the CC1352P7 driver: reply lines. *)
From Coq Require Import String Ascii ZArith List Bool Arith Lia ZifyBool ZifyNat.
From Verif Require Import Base QueueSpec LineSpec SerialSpec Ring RingProofs LineRing LineRingProofs Serial SerialProofs
  SerStep TaskMacros CStr CStrProofs Dev DevProofs SimDev SimProofs SimSpec Sym DrvStep DrvCommon Espressif Cc1352 CcSpec CcProofs CcCtl.
Import ListNotations.
Local Open Scope nat_scope.
Ltac Zify.zify_post_hook ::= Z.div_mod_to_equations.
Local Notation dv := (dev ccsend ccreply ccx).


(** What a complete reply line does to the control state. *)
Definition sc_revival : list (ccsend * ccsend) := [(SCSerialError, SCReceiving)].
Definition sc_line_in (d : dv) : Prop := fLine (fl d) = true /\ toRead d = 0%Z.

Definition sc_ictl (L : bytes) (d d' : dv) : Prop :=
  (sst d' = sst d \/ In (sst d, sst d') (sc_diagram ++ sc_revival)) /\
  (sc_cfg d' -> sc_cfg d) /\
  (fConnect (fl d') = fConnect (fl d) /\ fDisc (fl d') = fDisc (fl d) /\ fLock (fl d') = fLock (fl d)) /\
  (forall C : Prop, (prefixb sc_opened L = true -> C) -> sc_conf C d -> sc_conf C d') /\
  (sc_sync d -> sc_sync d') /\
  (sc_line_in d -> lbfill d' = 0 -> sc_line d') /\
  (cst d' = cst d \/ cst d' = csGeneralError) /\
  (fReset (fl d') = fReset (fl d) \/ fReset (fl d') = true /\ sc_error_line d L) /\
  (rssi d' = rssi d \/ rst d = RCCsq /\ prefixb (bs "+CSQ:") L = true) /\
  (cmac (ext d') = cmac (ext d) \/ (rst d = RCCsq \/ rst d = RCReqMac) /\ prefixb mac_lit L = true /\ In NUL (cmac (ext d'))) /\
  (fIp (fl d') = fIp (fl d) \/ fIp (fl d') = false /\ prefixb (bs "CLOSED") L = true) /\
  (fData (fl d') = fData (fl d) \/ fData (fl d') = true /\ prefixb (bs "+IPD") L = true) /\
  (rst d = RCParseCiprecvdata -> rst d' = RCParseCiprecvdata \/ prefixb (bs "+CIPRECVDATA") L = true) /\
  (rst d' = rst d \/ rst d' = RCOk).

Ltac orl := first [left; reflexivity | right; reflexivity | right; left; reflexivity | right; right; reflexivity].
Ltac pre := assumption.
Ltac ictl_leaf :=
  unfold sc_ictl; splits; gs;
  [ first [left; reflexivity | right; cbn; tauto]
  | cfg_leaf | reflexivity | reflexivity | reflexivity
  | let C := fresh in let HO := fresh in unfold sc_conf; intros C HO; conf_body
  | unfold sc_sync; gs; first [exact (fun x => x) | (intros; exact I) | (intros; left; reflexivity) | tauto]
  | let L1 := fresh in let L2 := fresh in
    unfold sc_line; gs; intros [L1 L2] _; split; intros; first [lia | discriminate | reflexivity | (split; [first [reflexivity|discriminate] | left; reflexivity]) | congruence]
  | orl
  | left; reflexivity
  | first [left; reflexivity | right; split; [reflexivity|pre]]
  | first [left; reflexivity | right; splits; [orl|pre|apply mac_copy_nul]]
  | first [left; reflexivity | right; split; [reflexivity|pre]]
  | first [left; reflexivity | right; split; [reflexivity|pre]]
  | first [discriminate | (intros _; first [left; reflexivity | right; pre])]
  | first [left; reflexivity | right; reflexivity] ].

Lemma sc_special_ctl : forall P (U : Prop) d, sc_inv d -> cparsed (lbuf d) -> lbfill d = 0 -> sc_line_in d -> sc_sync d ->
  wp U (sc_special_reply P d) (fun d2 => sc_ictl (lbuf d) d d2).
Proof.
  intros P U d H Hc Hf HL HS. pose proof (proj1 Hc) as Hp. open_inv d H. subst lf0. unfold sc_special_reply. gs. destruct rs0; try destruct wt0; symsj.
  all: unfold sc_line_in, sc_sync in *; dsimp; destruct HL as (-> & ->); try match type of HS with _ \/ _ => destruct HS as [->| ->] end.
  all: clear Hwf Hr Ht Hrw Hrs Hww Hws Hwf2 Hl Hw Hpo Hcm.
  all: cases; ictl_leaf.
Qed.
