(** The SIM7x00 driver: a modem that answers gets the documented commands, and the
    connection is opened and closed (C52).  The dialogues are explained in
    DrvHand.v and HandCheck.v. *)
From Coq Require Import String Ascii ZArith List Bool Arith Lia ZifyBool ZifyNat.
From Verif Require Import Base QueueSpec LineSpec SerialSpec Ring RingProofs LineRing LineRingProofs Serial SerialProofs
  SerStep TaskMacros CStr CStrProofs Dev DevProofs SimDev SimProofs SimSpec SimParse Sym DrvStep DrvCommon DrvRun DrvHist DrvHand SimLog SimHand DrvTalk Session HandCheck DevProps
  Sim7x00 Sim7Spec Sim7Hist Sim7Thms Sim7Hand Sim7Props.
Import ListNotations.
Local Open Scope nat_scope.
Local Notation dv := (dev s7send s7reply simx).
Local Notation ent := (@entry simop).

(** Not connected and nothing under way; connect() may have been called. *)
Definition s7_at_rest (d : dv) : Prop :=
  s7_going d /\ sst d = S7NotConnected /\ wait d = None /\ rst d = R7Ok /\ fDisc (fl d) = false.
(** Connected, and nothing under way or to be done. *)
Definition s7_at_ease (d : dv) : Prop :=
  s7_going d /\ ip_is_connected d = true /\ fIp (fl d) = true /\ sst d = S7Connected /\ wait d = None /\ rst d = R7Ok.
Definition s7_sets : dop simop -> bool := sets (fun x => match x with SetApn _ => true | _ => false end).
(** The parameters the calls set: APN, host, type and port. *)
Definition s7_given (p : cptr * cptr * Z * Z) (e : ent) : cptr * cptr * Z * Z :=
  let '(a, h, t, q) := p in
  match e_op e with OpX (SetApn a') => (a', h, t, q) | OpSetHostPort h' q' t' => (a, h', t', u16 q') | _ => p end.

Lemma s7_new_eq : forall s o rb wb rl ri rd rt, s7_new s o rb wb rl ri rd rt =
  sim_reset_states S7NotConnected R7Ok (d_raw s o rb wb rl rt S7NotConnected R7Ok (mkSimx PNull ri rd 1500%Z)).
Proof. intros. unfold s7_new. reflexivity. Qed.
Theorem C52_sim7_fresh : forall d, s7_built d -> isopen d = true -> s7_at_rest d.
Proof.
  intros d Hb Ho. destruct (s7_built_fresh d Hb) as (_ & _ & E1 & E2 & E3 & _ & E4 & _ & _ & _ & _ & _ & _ & _ & _ & E5 & _).
  unfold s7_at_rest, s7_going. rewrite E1, E2, E3, E4, E5. splits; auto; try discriminate.
  destruct Hb as (s & o & rb & wb & rl & ri & rd0 & rt & _ & _ & _ & _ & _ & _ & _ & _ & _ & E). rewrite s7_new_eq in E. left. exact (sim_reset_no_id _ _ _ _ _ _ E).
Qed.

(** Setting parameters and looking leaves the driver at rest. *)
Theorem C52_sim7_prepared : forall P d0 tr d, s7_at_rest d0 -> s7_hist P d0 tr d -> Forall (fun e => s7_sets (e_op e) = true) tr ->
  s7_at_rest d /\ s7_params d = fold_left s7_given tr (s7_params d0).
Proof.
  intros P d0 tr d Hr Hh. induction Hh as [d|d e d1 tr d2 Hs Hh IH]; intros HF; [split; [exact Hr|reflexivity]|].
  inversion HF as [|? ? He HF']; subst. pose proof Hs as (_ & _ & _ & E & _). cbn [fold_left].
  assert (H : s7_at_rest d1 /\ s7_params d1 = s7_given (s7_params d) e).
  { destruct (looks (e_op e)) eqn:El.
    - rewrite (looked _ _ _ _ _ _ _ _ _ _ _ E El). split; [exact Hr|]. unfold s7_given, s7_params. cbn [ext host typ port set_io]. destruct (e_op e); try discriminate El; reflexivity.
    - destruct (called _ _ _ _ _ _ _ E) as (z & x & Ex & ->). unfold s7_given. destruct (e_op e) eqn:Eo; try discriminate He; try discriminate El.
      + cbn [d_call] in Ex. injection Ex as _ <-. split; [exact Hr|reflexivity].
      + match goal with o : simop |- _ => destruct o end; try discriminate He. cbn [d_call drv_x s7_driver sim_x] in Ex. injection Ex as _ <-. split; [exact Hr|reflexivity]. }
  destruct H as [H1 H2]. destruct (IH H1 HF') as [H3 H4]. split; [exact H3|]. rewrite H4, H2. reflexivity.
Qed.

(** connect(), and a modem that answers. *)
Theorem C52_sim7_opens : forall P N a ok_first d e d1 tr d', s7_at_rest d -> s7_step P d e d1 -> e_op e = OpConnect -> e_out e = DBool true ->
  dialogue (s7_step P) s7_noise N (s7_open_replies a ok_first) d1 tr d' ->
  20 + length (text (host d)) <= N -> Forall (fun c => length c + 2 <= N) (s7_opening (apn (ext d)) (host d) a (typ d) (port d)) ->
  sent tr = commands (s7_opening (apn (ext d)) (host d) a (typ d) (port d)) /\ ip_is_connected d' = true /\
  s7_at_ease d' /\ s7_params d' = s7_params d /\ s7_address d' = a.
Proof.
  intros P N a ok d e d1 tr d' (R1 & R2 & R3 & R4 & R5) Hs Eo Eb Hd H1 H2. pose proof Hs as (_ & _ & _ & E & _). rewrite Eo in E.
  destruct (C31_connect_sim7 P _ _ _ _ _ E) as (b & Ebo & _ & Ed). rewrite Eb in Ebo. injection Ebo as <-. remember (io d1) as y eqn:Ey in Ed. clear Ey. subst d1.
  destruct (s7_opens P N a ok _ tr d' Hd) as (A1 & A2 & A3 & A4 & A5 & A6 & A7 & A8 & A9); try assumption; try reflexivity.
  split; [exact A1|]. split; [exact A2|]. split; [|split; [exact A8|exact A9]]. unfold s7_at_ease. splits; auto.
Qed.

(** disconnect(), and a modem that answers: no data left to send or to fetch. *)
Theorem C52_sim7_closes : forall P N d e d1 tr d', s7_at_ease d -> fData (fl d) = false -> avail (wbuf d) = 0 ->
  s7_step P d e d1 -> e_op e = OpDisconnect -> dialogue (s7_step P) s7_noise N s7_close_replies d1 tr d' -> 20 <= N ->
  sent tr = commands [bs "AT+NETCLOSE"] /\ ip_is_idle d' = true /\ s7_at_rest d' /\ s7_params d' = s7_params d.
Proof.
  intros P N d e d1 tr d' (R1 & R2 & R3 & R4 & R5 & R6) Hda Hw Hs Eo Hd HN. pose proof Hs as (_ & _ & _ & E & _). rewrite Eo in E.
  apply C31_disconnect in E. assert (Hi : ip_is_idle d = false) by (unfold ip_is_idle, ip_is_connected in *; destruct (cst d); congruence). rewrite Hi in E. remember (io d1) as y eqn:Ey in E. clear Ey. subst d1.
  destruct (s7_closes P N _ tr d' Hd HN) as (A1 & A2 & A3 & A4 & A5 & A6 & A7 & A8); try assumption; try reflexivity.
  split; [exact A1|]. split; [exact A2|]. split; [|exact A8]. unfold s7_at_rest. splits; auto.
Qed.

(** A session with both: echoes, empty lines and a line that comes in two pieces. *)
Definition s7_prepare : @script simop := [call (OpX (SetApn (PStr (bs "net")))); call (OpSetHostPort (PStr (bs "host")) 80%Z 1%Z)].
Definition s7_answers : @script simop :=
  runs_ 2 ++ dialog [crlf (bs "ATE0"); crlf (bs "OK"); crlf (bs ""); crlf (bs "OK")] ++ [modem (bs "O")] ++
  dialog [crlf (bs "K"); crlf (bs "OK"); crlf (bs "OK"); crlf (bs "+NETOPEN: 0"); crlf (bs "OK"); s7_dns_line (bs "1.2.3.4"); crlf (bs "OK"); crlf (bs "OK"); crlf (bs "+CIPOPEN: 0,0")].
Definition s7_ends : @script simop := runs_ 2 ++ [call OpIsConnected] ++ dialog [crlf (bs "OK"); crlf (bs "+NETCLOSE: 0")].
Definition s7_quiet_words : list string := ["ERROR"; "+NETOPEN"; "+CIPOPEN"; "+NETCLOSE"; "+CDNSGIP"; "+CIPRXGET: 1,0"; "+IPCLOSE: 0,"]%string.
Definition s7_open_check : list (option (bytes -> bool)) :=
  [None; None] ++ repeat (Some (prefixb (bs "OK"))) 4 ++ [Some (prefixb (bs "+NETOPEN: 0")); Some (prefixb (bs "OK"))] ++
  [Some (resolvedb (bs "1.2.3.4")); Some (prefixb (bs "OK"))] ++ [Some (prefixb (bs "+CIPOPEN: 0,0"))].
Definition s7_close_check : list (option (bytes -> bool)) := [None; None; Some (prefixb (bs "+NETCLOSE: 0"))].

Example C52_sim7_case : exists d0 tr0 d1 e d2 tr d3 e' d4 tr' d5,
  s7_built d0 /\ isopen d0 = true /\ s7_hist PA d0 tr0 d1 /\ Forall (fun e => s7_sets (e_op e) = true) tr0 /\
  s7_step PA d1 e d2 /\ e_op e = OpConnect /\ e_out e = DBool true /\
  dialogue (s7_step PA) s7_noise 64 (s7_open_replies (bs "1.2.3.4") false) d2 tr d3 /\
  20 + length (text (host d1)) <= 64 /\ Forall (fun c => length c + 2 <= 64) (s7_opening (apn (ext d1)) (host d1) (bs "1.2.3.4") (typ d1) (port d1)) /\
  fData (fl d3) = false /\ avail (wbuf d3) = 0 /\ s7_step PA d3 e' d4 /\ e_op e' = OpDisconnect /\
  dialogue (s7_step PA) s7_noise 64 s7_close_replies d4 tr' d5.
Proof.
  destruct s7_ex_built as (d0 & E0 & Hb).
  set (h := s7_prepare ++ call OpConnect :: s7_answers ++ call OpDisconnect :: s7_ends).
  assert (Hrun : exists d outs, d_run (s7_driver PA) d0 h = Ok (d, outs)).
  { assert (H : then_ (s7_driver PA) s7_ex h (fun _ => true) = true) by (vm_compute; reflexivity). unfold then_ in H. rewrite E0 in H.
    destruct (d_run (s7_driver PA) d0 h) as [[d outs]|u]; [eauto|discriminate H]. }
  destruct Hrun as (d5 & outs & Hrun).
  assert (Hv : s7_valid h). { apply (validb_ok _ (fun x => match x with SetApn p => strb p | _ => true end)); [intros [] H; try exact I; apply strb_ok, H|vm_compute; reflexivity]. }
  destruct (s7_every_run PA d0 h d5 outs Hb Hv Hrun) as (tra & Ha & Em & _). unfold h in Em.
  destruct (hist_part _ _ _ _ _ _ _ _ _ Ha Em) as (tr0 & trb & d1 & o1 & _ & M0 & Mb & H0 & Hb1 & R1).
  destruct (hist_one _ _ _ _ _ _ _ _ _ Hb1 Mb) as (e & trc & d2 & _ & Eo & Es & Mc & Hs & Hc & Ec). cbn [fst snd call] in Eo, Es, Ec.
  destruct (hist_part _ _ _ _ _ _ _ _ _ Hc Mc) as (tr & trd & d3 & o3 & _ & M2 & Md & H2 & Hd & R3).
  destruct (hist_one _ _ _ _ _ _ _ _ _ Hd Md) as (e' & tr' & d4 & _ & Eo' & Es' & Me & Hs' & He & Ed). cbn [fst snd call] in Eo', Es', Ed.
  assert (C1 : then_ (s7_driver PA) s7_ex s7_prepare (fun x => match d_step (s7_driver PA) OpConnect [] x with
    Ok (DBool true, _, y) => (20 + length (text (host x)) <=? 64) && forallb (fun c => length c + 2 <=? 64) (s7_opening (apn (ext x)) (host x) (bs "1.2.3.4") (typ x) (port x)) &&
      talks (s7_driver PA) (silentb s7_quiet_words) (fun _ => true) 64 s7_open_check s7_answers y &&
      match d_run (s7_driver PA) y s7_answers with Ok (z, _) => negb (fData (fl z)) && (avail (wbuf z) =? 0) && match d_step (s7_driver PA) OpDisconnect [] z with
        Ok (_, _, w) => talks (s7_driver PA) (silentb s7_quiet_words) (fun _ => true) 64 s7_close_check s7_ends w | UB _ => false end | UB _ => false end | _ => false end) = true) by (vm_compute; reflexivity).
  apply (then_at _ _ _ _ _ _ _ _ _ _ _ E0 R1) in C1. cbv beta in C1. rewrite Ec in C1. destruct (e_out e) as [|b| | | |] eqn:Eout; try discriminate C1. destruct b; [|discriminate C1].
  rewrite R3, Ed in C1. rewrite !andb_true_iff in C1. destruct C1 as (((C1 & C2) & C3) & (C4 & C5) & C6). apply Nat.leb_le in C1. apply negb_true_iff in C4. apply Nat.eqb_eq in C5.
  assert (Hp : forall d : dv, true = true -> plain_lines (s7_shape PA) d) by (intros d _; split; [exact whole_ends|intros L H; exact H]).
  exists d0, tr0, d1, e, d2, tr, d3, e', d4, tr', d5. splits; auto.
  - clear -E0. assert (H : then_ (s7_driver PA) s7_ex [] (fun x => isopen x) = true) by (vm_compute; reflexivity). unfold then_ in H. rewrite E0 in H. exact H.
  - apply Forall_forall. intros x Hx. assert (Hi : In (e_op x, e_sch x) s7_prepare) by (rewrite <- M0; exact (in_map (fun e => (e_op e, e_sch e)) tr0 x Hx)).
    destruct Hi as [Hi|[Hi|[]]]; injection Hi as <- _; reflexivity.
  - rewrite <- M2 in C3.
    refine (dialogue_same _ _ _ _ _ _ _ _ _ _ _ (talks_dialogue (s7_driver PA) (s7_shape PA) s7_all s7_goodx s7_noise (silentb s7_quiet_words) (fun L => proj1 (silentb_ok _ L)) (fun _ => true) Hp 64 tr d2 d3 H2 _ C3) _ _).
    same_replies.
  - apply Forall_forall. intros c Hc0. apply Nat.leb_le. exact (proj1 (forallb_forall _ _) C2 c Hc0).
  - rewrite <- Me in C6.
    refine (dialogue_same _ _ _ _ _ _ _ _ _ _ _ (talks_dialogue (s7_driver PA) (s7_shape PA) s7_all s7_goodx s7_noise (silentb s7_quiet_words) (fun L => proj1 (silentb_ok _ L)) (fun _ => true) Hp 64 tr' d4 d5 He _ C6) _ _).
    same_replies.
Qed.

(** ** Assumptions *)
Print Assumptions C52_sim7_fresh.
Print Assumptions C52_sim7_prepared.
Print Assumptions C52_sim7_opens.
Print Assumptions C52_sim7_closes.
