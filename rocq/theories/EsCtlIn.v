(** The control flow of the Espressif driver: reply lines. *)
From Coq Require Import String Ascii ZArith List Bool Arith Lia ZifyBool ZifyNat.
From Verif Require Import Base QueueSpec LineSpec SerialSpec Ring RingProofs LineRing LineRingProofs Serial SerialProofs
  SerStep TaskMacros CStr CStrProofs Dev DevProofs SimDev SimProofs SimSpec Sym DrvStep DrvCommon Espressif EsSpec EsFill EsProofs EsCtl.
Import ListNotations.
Local Open Scope nat_scope.
Ltac Zify.zify_post_hook ::= Z.div_mod_to_equations.
Local Notation dv := (dev essend esreply espx).

(** What a complete reply line does to the control state. *)
Definition se_revival : list (essend * essend) := [(SESerialError, SEReceiving); (SEFinalizeDisconnect, SEReceiving)].
Definition se_arrival : list (essend * essend) := (SEWaitReceive, SEReceiving) :: se_revival.

Definition se_move (L : bytes) (s s' : essend) : Prop :=
  s' = s \/ (In (s, s') se_arrival /\ prefixb (bs "+CIPRECVDATA") L = true) \/
  (s' = SEFinalizeDisconnect /\ 10 <= se_rank s /\ prefixb (bs "WIFI DISCONNECT") L = true).

Definition se_ictl (L : bytes) (d d' : dv) : Prop :=
  se_move L (sst d) (sst d') /\
  (se_cfg d' -> se_cfg d) /\
  (fConnect (fl d') = fConnect (fl d) /\ fDisc (fl d') = fDisc (fl d) /\ fLock (fl d') = fLock (fl d)) /\
  (forall C : Prop, (prefixb se_opened L = true -> C) -> se_conf C d -> se_conf C d') /\
  (se_sync d -> se_sync d') /\
  (typ d = TCP -> fLine (fl d) = true -> toRead d = 0%Z -> se_tline d') /\
  (cst d' = cst d \/ cst d' = csGeneralError /\ (se_error_line L \/ se_send_fail d L)) /\
  (fReset (fl d') = fReset (fl d) \/ fReset (fl d') = true /\ se_error_line L) /\
  (rssi d' = rssi d \/ rst d = RERssi /\ (prefixb (bs "+CWJAP:") L = true \/ prefixb (bs "No AP") L = true)) /\
  (ssid (ext d') = ssid (ext d) /\ passwd (ext d') = passwd (ext d)) /\
  (emac (ext d') = emac (ext d) \/ rst d = REReqMac /\ prefixb mac_lit L = true /\ In NUL (emac (ext d'))) /\
  (fIp (fl d') = fIp (fl d) \/ fIp (fl d') = false /\ prefixb (bs "CLOSED") L = true) /\
  (fData (fl d') = fData (fl d) \/ fData (fl d') = true /\ prefixb (bs "+IPD") L = true) /\
  (se_receipt (rst d) = true -> rst d' = rst d \/ prefixb (bs "+CIPRECVDATA") L = true) /\
  (rst d' = rst d \/ rst d' = REOk) /\
  (toRead d' = toRead d /\ fLine (fl d') = fLine (fl d) \/ prefixb (bs "+CIPRECVDATA") L = true \/
   prefixb (bs "+IPD") L = true /\ typ d <> TCP /\ fLine (fl d') = false) /\
  (toReceive d' = toReceive d \/ prefixb (bs "+CIPRECVDATA") L = true \/ prefixb (bs "+IPD") L = true).

Ltac orl := first [left; reflexivity | right; reflexivity | right; left; reflexivity | right; right; reflexivity].
Ltac pre := assumption.
Ltac ictl_leaf :=
  unfold se_ictl; splits; gs;
  [ unfold se_move; first [left; reflexivity | right; left; split; [cbn; tauto|pre] ]
  | cfg_leaf | reflexivity | reflexivity | reflexivity
  | let C := fresh in let HO := fresh in unfold se_conf; intros C HO; conf_body
  | unfold se_sync; gs; cbn [se_receipt]; first [exact (fun x => x) | discriminate | (intros; discriminate) | tauto]
  | unfold se_tline; gs; intros; first [lia | discriminate | (split; [first [reflexivity|discriminate] | left; reflexivity]) | congruence]
  | left; reflexivity
  | left; reflexivity
  | first [left; reflexivity | right; split; [reflexivity|first [left; pre | right; pre]]]
  | reflexivity | reflexivity
  | first [left; reflexivity | right; splits; [reflexivity|pre|apply mac_copy_nul]]
  | left; reflexivity
  | left; reflexivity
  | cbn [se_receipt]; first [discriminate | (intros _; first [left; reflexivity | right; pre])]
  | first [left; reflexivity | right; reflexivity]
  | first [(left; split; reflexivity) | (right; left; pre)]
  | first [(left; reflexivity) | (right; left; pre)] ].

Lemma se_special_ctl : forall P (U : Prop) d, se_inv d -> eparsed (lbuf d) -> lbfill d = 0 -> se_sync d ->
  wp U (se_special_reply P d) (fun d2 => se_ictl (lbuf d) d d2 /\ (rst d = REParseCiprecvdata -> prefixb (bs "+CIPRECVDATA") (lbuf d) = true -> rst d2 = REOk)).
Proof.
  intros P U d H Hc Hf HS. pose proof (proj1 Hc) as Hp. open_inv d H. subst lf0. unfold se_special_reply. gs. destruct rs0; try destruct wt0; symsj.
  all: unfold se_sync in *; dsimp; cbn [se_receipt] in HS; try (destruct (HS eq_refl) as [->|[->| ->]]).
  all: clear Hwf Hr Ht Hrw Hrs Hww Hws Hwf2 Hl Hw Hpo Hcm HS.
  all: cases; (split; [ictl_leaf | first [discriminate | (intros; reflexivity) | (intros; congruence)]]).
Qed.
