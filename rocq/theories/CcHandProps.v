(** The CC1352P7 driver: a modem that answers gets the documented commands, and the
    connection is opened and closed (C52).  The dialogues are explained in
    DrvHand.v and HandCheck.v. *)
From Coq Require Import String Ascii ZArith List Bool Arith Lia ZifyBool ZifyNat.
From Verif Require Import Base QueueSpec LineSpec SerialSpec Ring RingProofs LineRing LineRingProofs Serial SerialProofs
  SerStep TaskMacros CStr CStrProofs Dev DevProofs SimDev SimProofs SimSpec SimParse Sym DrvStep DrvCommon DrvRun DrvHist DrvHand DrvTalk Session HandCheck DevProps
  Cc1352 CcSpec CcHist CcThms CcHand CcProps.
Import ListNotations.
Local Open Scope nat_scope.
Local Notation dv := (dev ccsend ccreply ccx).
Local Notation ent := (@entry ccop).

(** Not connected and nothing under way; connect() may have been called. *)
Definition sc_at_rest (P : plat) (d : dv) : Prop := sc_going P d /\ sst d = SCNotConnected /\ wait d = None.
(** Connected, and nothing under way or to be done. *)
Definition sc_at_ease (P : plat) (d : dv) : Prop :=
  sc_going P d /\ ip_is_connected d = true /\ fIp (fl d) = true /\ sst d = SCConnected /\ wait d = None.
Definition sc_sets : dop ccop -> bool := sets (fun x => false).
(** The parameters the calls set: host, type and port. *)
Definition sc_given (p : cptr * Z * Z) (e : ent) : cptr * Z * Z :=
  match e_op e with OpSetHostPort h' q' t' => (h', t', u16 q') | _ => p end.

(** The MAC buffer is not initialised; with an unsigned char its contents may look like
    a request, which would then be sent first. *)
Theorem C52_cc_fresh : forall P d, sc_built d -> isopen d = true -> mac_request P (cmac (ext d)) = false -> sc_at_rest P d.
Proof.
  intros P d Hb Ho Hm. destruct (sc_built_fresh d Hb) as (_ & _ & E1 & E2 & E3 & _ & E4 & _ & _ & _ & _ & _ & _ & _ & _ & E5 & _).
  unfold sc_at_rest, sc_going. rewrite E1, E2, E3, E4, E5. splits; auto; try discriminate.
Qed.

(** Setting parameters and looking leaves the driver at rest. *)
Theorem C52_cc_prepared : forall P d0 tr d, sc_at_rest P d0 -> sc_hist P d0 tr d -> Forall (fun e => sc_sets (e_op e) = true) tr ->
  sc_at_rest P d /\ sc_params d = fold_left sc_given tr (sc_params d0).
Proof.
  intros P d0 tr d Hr Hh. induction Hh as [d|d e d1 tr d2 Hs Hh IH]; intros HF; [split; [exact Hr|reflexivity]|].
  inversion HF as [|? ? He HF']; subst. pose proof Hs as (_ & _ & _ & E & _). cbn [fold_left].
  assert (H : sc_at_rest P d1 /\ sc_params d1 = sc_given (sc_params d) e).
  { destruct (looks (e_op e)) eqn:El.
    - rewrite (looked _ _ _ _ _ _ _ _ _ _ _ E El). split; [exact Hr|]. unfold sc_given, sc_params. cbn [host typ port set_io]. destruct (e_op e); try discriminate El; reflexivity.
    - destruct (called _ _ _ _ _ _ _ E) as (z & x & Ex & ->). unfold sc_given. destruct (e_op e) eqn:Eo; try discriminate He; try discriminate El.
      cbn [d_call] in Ex. injection Ex as _ <-. split; [exact Hr|reflexivity]. }
  destruct H as [H1 H2]. destruct (IH H1 HF') as [H3 H4]. split; [exact H3|]. rewrite H4, H2. reflexivity.
Qed.

(** connect(), and a modem that answers. *)
Theorem C52_cc_opens : forall P N d e d1 tr d', sc_at_rest P d -> sc_step P d e d1 -> e_op e = OpConnect -> e_out e = DBool true ->
  dialogue (sc_step P) sc_noise N sc_open_replies d1 tr d' ->
  20 <= N -> Forall (fun c => length c + 2 <= N) (sc_opening (host d) (typ d) (port d)) ->
  sent tr = commands (sc_opening (host d) (typ d) (port d)) /\ ip_is_connected d' = true /\
  sc_at_ease P d' /\ sc_params d' = sc_params d.
Proof.
  intros P N d e d1 tr d' (R1 & R2 & R3) Hs Eo Eb Hd H1 H2. pose proof Hs as (_ & _ & _ & E & _). rewrite Eo in E.
  destruct (C31_connect_cc1352 P _ _ _ _ _ E) as (b & Ebo & _ & Ed). rewrite Eb in Ebo. injection Ebo as <-. remember (io d1) as y eqn:Ey in Ed. clear Ey. subst d1.
  destruct (sc_opens P N _ tr d' Hd) as (A1 & A2 & A3 & A4 & A5 & A6 & A7); try assumption; try reflexivity.
  split; [exact A1|]. split; [exact A2|]. split; [|exact A7]. unfold sc_at_ease. splits; auto.
Qed.

(** disconnect(), and a modem that answers: no data left to send or to fetch. *)
Theorem C52_cc_closes : forall P N d e d1 tr d', sc_at_ease P d -> fData (fl d) = false -> avail (wbuf d) = 0 ->
  sc_step P d e d1 -> e_op e = OpDisconnect -> dialogue (sc_step P) sc_noise N sc_close_replies d1 tr d' -> 20 <= N ->
  sent tr = commands [bs "AT+CIPCLOSE"] /\ ip_is_idle d' = true /\ sc_at_rest P d' /\ sc_params d' = sc_params d.
Proof.
  intros P N d e d1 tr d' (R1 & R2 & R3 & R4 & R5) Hda Hw Hs Eo Hd HN. pose proof Hs as (_ & _ & _ & E & _). rewrite Eo in E.
  apply C31_disconnect in E. assert (Hi : ip_is_idle d = false) by (unfold ip_is_idle, ip_is_connected in *; destruct (cst d); congruence). rewrite Hi in E. remember (io d1) as y eqn:Ey in E. clear Ey. subst d1.
  destruct (sc_closes P N _ tr d' Hd HN) as (A1 & A2 & A3 & A4 & A5 & A6); try assumption; try reflexivity.
  split; [exact A1|]. split; [exact A2|]. split; [|exact A6]. unfold sc_at_rest. splits; auto.
Qed.

(** A session with both: echoes, empty lines and a line that comes in two pieces. *)
Definition sc_prepare : @script ccop := [call OpGetRSSI; call (OpSetHostPort (PStr (bs "host")) 80%Z 1%Z)].
Definition sc_answers : @script ccop := runs_ 2 ++ dialog [crlf (bs "ATE0"); crlf (bs "OK"); crlf (bs "")] ++ [modem (bs "O")] ++ dialog [crlf (bs "K")].
Definition sc_ends : @script ccop := runs_ 2 ++ [call OpIsConnected] ++ dialog [crlf (bs ""); crlf (bs "OK")].
Definition sc_quiet_words : list string := ["ERROR"; "SEND FAIL"; "+IPD"; "CLOSED"]%string.
Definition sc_open_check : list (option (bytes -> bool)) := [None; None; Some (prefixb (bs "OK")); Some (prefixb (bs "OK"))].
Definition sc_close_check : list (option (bytes -> bool)) := [None; None; Some (prefixb (bs "OK"))].

Example C52_cc_case : exists d0 tr0 d1 e d2 tr d3 e' d4 tr' d5,
  sc_built d0 /\ isopen d0 = true /\ mac_request PU (cmac (ext d0)) = false /\ sc_hist PU d0 tr0 d1 /\ Forall (fun e => sc_sets (e_op e) = true) tr0 /\
  sc_step PU d1 e d2 /\ e_op e = OpConnect /\ e_out e = DBool true /\
  dialogue (sc_step PU) sc_noise 64 sc_open_replies d2 tr d3 /\
  Forall (fun c => length c + 2 <= 64) (sc_opening (host d1) (typ d1) (port d1)) /\
  fData (fl d3) = false /\ avail (wbuf d3) = 0 /\ sc_step PU d3 e' d4 /\ e_op e' = OpDisconnect /\
  dialogue (sc_step PU) sc_noise 64 sc_close_replies d4 tr' d5.
Proof.
  destruct sc_ex_built as (d0 & E0 & Hb).
  set (h := sc_prepare ++ call OpConnect :: sc_answers ++ call OpDisconnect :: sc_ends).
  assert (Hrun : exists d outs, d_run (sc_driver PU) d0 h = Ok (d, outs)).
  { assert (H : then_ (sc_driver PU) sc_ex h (fun _ => true) = true) by (vm_compute; reflexivity). unfold then_ in H. rewrite E0 in H.
    destruct (d_run (sc_driver PU) d0 h) as [[d outs]|u]; [eauto|discriminate H]. }
  destruct Hrun as (d5 & outs & Hrun).
  assert (Hv : sc_valid h). { apply (validb_ok _ (fun _ => true)); [intros; exact I|vm_compute; reflexivity]. }
  destruct (sc_every_run PU d0 h d5 outs Hb Hv Hrun) as (tra & Ha & Em & _). unfold h in Em.
  destruct (hist_part _ _ _ _ _ _ _ _ _ Ha Em) as (tr0 & trb & d1 & o1 & _ & M0 & Mb & H0 & Hb1 & R1).
  destruct (hist_one _ _ _ _ _ _ _ _ _ Hb1 Mb) as (e & trc & d2 & _ & Eo & Es & Mc & Hs & Hc & Ec). cbn [fst snd call] in Eo, Es, Ec.
  destruct (hist_part _ _ _ _ _ _ _ _ _ Hc Mc) as (tr & trd & d3 & o3 & _ & M2 & Md & H2 & Hd & R3).
  destruct (hist_one _ _ _ _ _ _ _ _ _ Hd Md) as (e' & tr' & d4 & _ & Eo' & Es' & Me & Hs' & He & Ed). cbn [fst snd call] in Eo', Es', Ed.
  assert (C1 : then_ (sc_driver PU) sc_ex sc_prepare (fun x => match d_step (sc_driver PU) OpConnect [] x with
    Ok (DBool true, _, y) => forallb (fun c => length c + 2 <=? 64) (sc_opening (host x) (typ x) (port x)) &&
      talks (sc_driver PU) (silentb sc_quiet_words) (fun _ => true) 64 sc_open_check sc_answers y &&
      match d_run (sc_driver PU) y sc_answers with Ok (z, _) => negb (fData (fl z)) && (avail (wbuf z) =? 0) && match d_step (sc_driver PU) OpDisconnect [] z with
        Ok (_, _, w) => talks (sc_driver PU) (silentb sc_quiet_words) (fun _ => true) 64 sc_close_check sc_ends w | UB _ => false end | UB _ => false end | _ => false end) = true) by (vm_compute; reflexivity).
  apply (then_at _ _ _ _ _ _ _ _ _ _ _ E0 R1) in C1. cbv beta in C1. rewrite Ec in C1. destruct (e_out e) as [|b| | | |] eqn:Eout; try discriminate C1. destruct b; [|discriminate C1].
  rewrite R3, Ed in C1. rewrite !andb_true_iff in C1. destruct C1 as ((C2 & C3) & (C4 & C5) & C6). apply negb_true_iff in C4. apply Nat.eqb_eq in C5.
  assert (Hp : forall d : dv, true = true -> plain_lines (sc_shape PU) d) by (intros d _; split; [exact whole_ends|intros L H; exact H]).
  exists d0, tr0, d1, e, d2, tr, d3, e', d4, tr', d5. splits; auto.
  - clear -E0. assert (H : then_ (sc_driver PU) sc_ex [] (fun x => isopen x) = true) by (vm_compute; reflexivity). unfold then_ in H. rewrite E0 in H. exact H.
  - clear -E0. assert (H : then_ (sc_driver PU) sc_ex [] (fun x => negb (mac_request PU (cmac (ext x)))) = true) by (vm_compute; reflexivity). unfold then_ in H. rewrite E0 in H. apply negb_true_iff. exact H.
  - apply Forall_forall. intros x Hx. assert (Hi : In (e_op x, e_sch x) sc_prepare) by (rewrite <- M0; exact (in_map (fun e => (e_op e, e_sch e)) tr0 x Hx)).
    destruct Hi as [Hi|[Hi|[]]]; injection Hi as <- _; reflexivity.
  - rewrite <- M2 in C3.
    refine (dialogue_same _ _ _ _ _ _ _ _ _ _ _ (talks_dialogue (sc_driver PU) (sc_shape PU) (sc_all False) sc_goodx sc_noise (silentb sc_quiet_words) (fun L => proj1 (silentb_ok _ L)) (fun _ => true) Hp 64 tr d2 d3 H2 _ C3) _ _).
    same_replies.
  - apply Forall_forall. intros c Hc0. apply Nat.leb_le. exact (proj1 (forallb_forall _ _) C2 c Hc0).
  - rewrite <- Me in C6.
    refine (dialogue_same _ _ _ _ _ _ _ _ _ _ _ (talks_dialogue (sc_driver PU) (sc_shape PU) (sc_all False) sc_goodx sc_noise (silentb sc_quiet_words) (fun L => proj1 (silentb_ok _ L)) (fun _ => true) Hp 64 tr' d4 d5 He _ C6) _ _).
    same_replies.
Qed.

(** ** Assumptions *)
Print Assumptions C52_cc_fresh.
Print Assumptions C52_cc_prepared.
Print Assumptions C52_cc_opens.
Print Assumptions C52_cc_closes.
