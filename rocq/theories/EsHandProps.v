(** The Espressif driver: a modem that answers gets the documented commands, and the
    connection is opened and closed (C52).  The dialogues are explained in
    DrvHand.v and HandCheck.v. *)
From Coq Require Import String Ascii ZArith List Bool Arith Lia ZifyBool ZifyNat.
From Verif Require Import Base QueueSpec LineSpec SerialSpec Ring RingProofs LineRing LineRingProofs Serial SerialProofs
  SerStep TaskMacros CStr CStrProofs Dev DevProofs SimDev SimProofs SimSpec SimParse Sym DrvStep DrvCommon DrvRun DrvHist DrvHand DrvTalk Session HandCheck DevProps
  Espressif EsSpec EsFill EsHist EsThms EsProps EsHand.
Import ListNotations.
Local Open Scope nat_scope.
Local Notation dv := (dev essend esreply espx).
Local Notation ent := (@entry esop).

(** Not connected and nothing under way; connect() may have been called. *)
Definition se_at_rest (P : plat) (d : dv) : Prop := se_going P d /\ sst d = SENotConnected /\ wait d = None.
(** Connected, and nothing under way or to be done. *)
Definition se_at_ease (P : plat) (d : dv) : Prop :=
  se_going P d /\ ip_is_connected d = true /\ fIp (fl d) = true /\ sst d = SEConnected /\ wait d = None.
Definition se_sets : dop esop -> bool := sets (fun x => match x with SetSSID _ | SetPassword _ => true | _ => false end).
(** The parameters the calls set: network name, password, host, type and port. *)
Definition se_given (p : cptr * cptr * cptr * Z * Z) (e : ent) : cptr * cptr * cptr * Z * Z :=
  let '(s, w, h, t, q) := p in
  match e_op e with OpX (SetSSID s') => (s', w, h, t, q) | OpX (SetPassword w') => (s, w', h, t, q) | OpSetHostPort h' q' t' => (s, w, h', t', u16 q') | _ => p end.

(** The MAC buffer is not initialised; with an unsigned char its contents may look like
    a request, which would then be sent first. *)
Theorem C52_esp_fresh : forall P d, se_built d -> isopen d = true -> se_mac_request P (emac (ext d)) = false -> se_at_rest P d.
Proof.
  intros P d Hb Ho Hm. destruct (se_built_fresh d Hb) as (_ & _ & E1 & E2 & E3 & _ & E4 & _ & _ & _ & _ & _ & _ & _ & _ & E5 & _).
  unfold se_at_rest, se_going. rewrite E1, E2, E3, E4, E5. splits; auto; try discriminate.
Qed.

(** Setting parameters and looking leaves the driver at rest. *)
Theorem C52_esp_prepared : forall P d0 tr d, se_at_rest P d0 -> se_hist P d0 tr d -> Forall (fun e => se_sets (e_op e) = true) tr ->
  se_at_rest P d /\ se_params d = fold_left se_given tr (se_params d0).
Proof.
  intros P d0 tr d Hr Hh. induction Hh as [d|d e d1 tr d2 Hs Hh IH]; intros HF; [split; [exact Hr|reflexivity]|].
  inversion HF as [|? ? He HF']; subst. pose proof Hs as (_ & _ & _ & E & _). cbn [fold_left].
  assert (H : se_at_rest P d1 /\ se_params d1 = se_given (se_params d) e).
  { destruct (looks (e_op e)) eqn:El.
    - rewrite (looked _ _ _ _ _ _ _ _ _ _ _ E El). split; [exact Hr|]. unfold se_given, se_params. cbn [ext host typ port set_io]. destruct (e_op e); try discriminate El; reflexivity.
    - destruct (called _ _ _ _ _ _ _ E) as (z & x & Ex & ->). unfold se_given. destruct (e_op e) eqn:Eo; try discriminate He; try discriminate El.
      + cbn [d_call] in Ex. injection Ex as _ <-. split; [exact Hr|reflexivity].
      + match goal with o : esop |- _ => destruct o end; try discriminate He; cbn [d_call drv_x se_driver se_x] in Ex; injection Ex as _ <-; (split; [exact Hr|reflexivity]). }
  destruct H as [H1 H2]. destruct (IH H1 HF') as [H3 H4]. split; [exact H3|]. rewrite H4, H2. reflexivity.
Qed.

(** connect(), and a modem that answers. *)
Theorem C52_esp_opens : forall P N d e d1 tr d', se_at_rest P d -> se_step P d e d1 -> e_op e = OpConnect -> e_out e = DBool true ->
  dialogue (se_step P) se_noise N se_open_replies d1 tr d' ->
  20 <= N -> Forall (fun c => length c + 2 <= N) (se_opening (ssid (ext d)) (passwd (ext d)) (host d) (typ d) (port d)) ->
  sent tr = commands (se_opening (ssid (ext d)) (passwd (ext d)) (host d) (typ d) (port d)) /\ ip_is_connected d' = true /\
  se_at_ease P d' /\ se_params d' = se_params d.
Proof.
  intros P N d e d1 tr d' (R1 & R2 & R3) Hs Eo Eb Hd H1 H2. pose proof Hs as (_ & _ & _ & E & _). rewrite Eo in E.
  destruct (C31_connect_espressif P _ _ _ _ _ E) as (b & Ebo & _ & Ed). rewrite Eb in Ebo. injection Ebo as <-. remember (io d1) as y eqn:Ey in Ed. clear Ey. subst d1.
  destruct (EsHand.se_opens P N _ tr d' Hd) as (A1 & A2 & A3 & A4 & A5 & A6 & A7); try assumption; try reflexivity.
  split; [exact A1|]. split; [exact A2|]. split; [|exact A7]. unfold se_at_ease. splits; auto.
Qed.

(** disconnect(), and a modem that answers: no data left to send or to fetch. *)
Theorem C52_esp_closes : forall P N d e d1 tr d', se_at_ease P d -> fData (fl d) = false -> avail (wbuf d) = 0 ->
  se_step P d e d1 -> e_op e = OpDisconnect -> dialogue (se_step P) se_noise N se_close_replies d1 tr d' -> 20 <= N ->
  sent tr = commands [bs "AT+CIPCLOSE"; bs "AT+CWQAP"] /\ ip_is_idle d' = true /\ se_at_rest P d' /\ se_params d' = se_params d.
Proof.
  intros P N d e d1 tr d' (R1 & R2 & R3 & R4 & R5) Hda Hw Hs Eo Hd HN. pose proof Hs as (_ & _ & _ & E & _). rewrite Eo in E.
  apply C31_disconnect in E. assert (Hi : ip_is_idle d = false) by (unfold ip_is_idle, ip_is_connected in *; destruct (cst d); congruence). rewrite Hi in E. remember (io d1) as y eqn:Ey in E. clear Ey. subst d1.
  destruct (se_closes P N _ tr d' Hd HN) as (A1 & A2 & A3 & A4 & A5 & A6); try assumption; try reflexivity.
  split; [exact A1|]. split; [exact A2|]. split; [|exact A6]. unfold se_at_rest. splits; auto.
Qed.

(** A session with both: echoes, empty lines and a line that comes in two pieces. *)
Definition se_prepare : @script esop :=
  [call (OpX (SetSSID (PStr (bs "net")))); call (OpX (SetPassword (PStr (bs "pw")))); call (OpSetHostPort (PStr (bs "host")) 80%Z TCP)].
Definition se_answers : @script esop :=
  runs_ 2 ++ dialog [crlf (bs "ATE0"); crlf (bs "OK"); crlf (bs ""); crlf (bs "OK"); crlf (bs "WIFI CONNECTED"); crlf (bs "WIFI GOT IP"); crlf (bs "OK")] ++
  [modem (bs "O")] ++ dialog [crlf (bs "K"); crlf (bs "OK"); crlf (bs "OK"); crlf (bs "CONNECT"); crlf (bs "OK")].
Definition se_ends_ : @script esop := runs_ 2 ++ [call OpIsConnected] ++ dialog [crlf (bs ""); crlf (bs "OK"); crlf (bs "OK"); crlf (bs "WIFI DISCONNECT")].
Definition se_quiet_words : list string := ["ERROR"; "FAIL"; "SEND FAIL"; "+IPD"; "CLOSED"; "WIFI DISCONNECT"]%string.
Definition se_open_check : list (option (bytes -> bool)) := [None; None] ++ repeat (Some (prefixb (bs "OK"))) 7.
Definition se_close_check : list (option (bytes -> bool)) := [None; None; Some (prefixb (bs "OK")); Some (prefixb (bs "WIFI DISCONNECT"))].
Definition se_plainb (d : dv) : bool := (typ d =? TCP)%Z && re_ok (rst d).
Lemma se_plainb_ok : forall P (d : dv), se_plainb d = true -> plain_lines (se_shape P) d.
Proof.
  intros P d H. unfold se_plainb in H. apply andb_true_iff in H as [H1 H2]. split; [|intros L K; exact K].
  intros L (b & c & -> & _ & _ & _ & K). split; [destruct b; discriminate|]. unfold se_ends, se_colon, se_header in K. rewrite H1 in K. destruct (rst d); try discriminate H2.
  cbn [negb andb] in K. rewrite !orb_false_r in K. exact K.
Qed.

Example C52_esp_case : exists d0 tr0 d1 e d2 tr d3 e' d4 tr' d5,
  se_built d0 /\ isopen d0 = true /\ se_mac_request PU (emac (ext d0)) = false /\ se_hist PU d0 tr0 d1 /\ Forall (fun e => se_sets (e_op e) = true) tr0 /\
  se_step PU d1 e d2 /\ e_op e = OpConnect /\ e_out e = DBool true /\
  dialogue (se_step PU) se_noise 64 se_open_replies d2 tr d3 /\
  Forall (fun c => length c + 2 <= 64) (se_opening (ssid (ext d1)) (passwd (ext d1)) (host d1) (typ d1) (port d1)) /\
  fData (fl d3) = false /\ avail (wbuf d3) = 0 /\ se_step PU d3 e' d4 /\ e_op e' = OpDisconnect /\
  dialogue (se_step PU) se_noise 64 se_close_replies d4 tr' d5.
Proof.
  destruct se_ex_built as (d0 & E0 & Hb).
  set (h := se_prepare ++ call OpConnect :: se_answers ++ call OpDisconnect :: se_ends_).
  assert (Hrun : exists d outs, d_run (se_driver PU) d0 h = Ok (d, outs)).
  { assert (H : then_ (se_driver PU) se_ex h (fun _ => true) = true) by (vm_compute; reflexivity). unfold then_ in H. rewrite E0 in H.
    destruct (d_run (se_driver PU) d0 h) as [[d outs]|u]; [eauto|discriminate H]. }
  destruct Hrun as (d5 & outs & Hrun).
  assert (Hv : se_valid h). { apply (validb_ok _ (fun x => match x with SetSSID p | SetPassword p => strb p | _ => true end)); [intros [p|p| |] H; try exact I; apply strb_ok in H as [s ->]; first [exact I|exists s; reflexivity]|vm_compute; reflexivity]. }
  destruct (se_every_run PU d0 h d5 outs Hb Hv Hrun) as (tra & Ha & Em & _). unfold h in Em.
  destruct (hist_part _ _ _ _ _ _ _ _ _ Ha Em) as (tr0 & trb & d1 & o1 & _ & M0 & Mb & H0 & Hb1 & R1).
  destruct (hist_one _ _ _ _ _ _ _ _ _ Hb1 Mb) as (e & trc & d2 & _ & Eo & Es & Mc & Hs & Hc & Ec). cbn [fst snd call] in Eo, Es, Ec.
  destruct (hist_part _ _ _ _ _ _ _ _ _ Hc Mc) as (tr & trd & d3 & o3 & _ & M2 & Md & H2 & Hd & R3).
  destruct (hist_one _ _ _ _ _ _ _ _ _ Hd Md) as (e' & tr' & d4 & _ & Eo' & Es' & Me & Hs' & He & Ed). cbn [fst snd call] in Eo', Es', Ed.
  assert (C1 : then_ (se_driver PU) se_ex se_prepare (fun x => match d_step (se_driver PU) OpConnect [] x with
    Ok (DBool true, _, y) => forallb (fun c => length c + 2 <=? 64) (se_opening (ssid (ext x)) (passwd (ext x)) (host x) (typ x) (port x)) &&
      talks (se_driver PU) (silentb se_quiet_words) se_plainb 64 se_open_check se_answers y &&
      match d_run (se_driver PU) y se_answers with Ok (z, _) => negb (fData (fl z)) && (avail (wbuf z) =? 0) && match d_step (se_driver PU) OpDisconnect [] z with
        Ok (_, _, w) => talks (se_driver PU) (silentb se_quiet_words) se_plainb 64 se_close_check se_ends_ w | UB _ => false end | UB _ => false end | _ => false end) = true) by (vm_compute; reflexivity).
  apply (then_at _ _ _ _ _ _ _ _ _ _ _ E0 R1) in C1. cbv beta in C1. rewrite Ec in C1. destruct (e_out e) as [|b| | | |] eqn:Eout; try discriminate C1. destruct b; [|discriminate C1].
  rewrite R3, Ed in C1. rewrite !andb_true_iff in C1. destruct C1 as ((C2 & C3) & (C4 & C5) & C6). apply negb_true_iff in C4. apply Nat.eqb_eq in C5.
  exists d0, tr0, d1, e, d2, tr, d3, e', d4, tr', d5. splits; auto.
  - clear -E0. assert (H : then_ (se_driver PU) se_ex [] (fun x => isopen x) = true) by (vm_compute; reflexivity). unfold then_ in H. rewrite E0 in H. exact H.
  - clear -E0. assert (H : then_ (se_driver PU) se_ex [] (fun x => negb (se_mac_request PU (emac (ext x)))) = true) by (vm_compute; reflexivity). unfold then_ in H. rewrite E0 in H. apply negb_true_iff. exact H.
  - apply Forall_forall. intros x Hx. assert (Hi : In (e_op x, e_sch x) se_prepare) by (rewrite <- M0; exact (in_map (fun e => (e_op e, e_sch e)) tr0 x Hx)).
    destruct Hi as [Hi|[Hi|[Hi|[]]]]; injection Hi as <- _; reflexivity.
  - rewrite <- M2 in C3.
    refine (dialogue_same _ _ _ _ _ _ _ _ _ _ _ (talks_dialogue (se_driver PU) (se_shape PU) (se_all False) se_goodx se_noise (silentb se_quiet_words) (fun L => proj1 (silentb_ok _ L)) se_plainb (se_plainb_ok PU) 64 tr d2 d3 H2 _ C3) _ _).
    same_replies.
  - apply Forall_forall. intros c Hc0. apply Nat.leb_le. exact (proj1 (forallb_forall _ _) C2 c Hc0).
  - rewrite <- Me in C6.
    refine (dialogue_same _ _ _ _ _ _ _ _ _ _ _ (talks_dialogue (se_driver PU) (se_shape PU) (se_all False) se_goodx se_noise (silentb se_quiet_words) (fun L => proj1 (silentb_ok _ L)) se_plainb (se_plainb_ok PU) 64 tr' d4 d5 He _ C6) _ _).
    same_replies.
Qed.

(** ** Assumptions *)
Print Assumptions C52_esp_fresh.
Print Assumptions C52_esp_prepared.
Print Assumptions C52_esp_opens.
Print Assumptions C52_esp_closes.
