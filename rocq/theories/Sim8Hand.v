(** The SIM800 driver opens and closes a connection if the modem answers. *)
From Coq Require Import String Ascii ZArith List Bool Arith Lia ZifyBool ZifyNat.
From Verif Require Import Base QueueSpec LineSpec SerialSpec Ring RingProofs LineRing LineRingProofs Serial SerialProofs
  SerStep TaskMacros CStr CStrProofs Dev DevProofs SimDev SimProofs SimSpec SimParse SimLog Sym DrvStep DrvCommon DrvRun DrvHist DrvActs DrvStuck DrvHand SimHand
  Sim800 Sim8Spec Sim8Proofs Sim8Ctl Sim8CtlIn Sim8Run Sim8Hist Sim8Thms Sim8More Sim8Line Sim8Req Sim8Rest Sim8Stuck.
Import ListNotations.
Local Open Scope nat_scope.
Ltac Zify.zify_post_hook ::= Z.div_mod_to_equations.
Local Notation dv := (dev s8send s8reply simx).
Local Notation ent := (@entry simop).
Local Notation olab8 := (olab r8_ok s8_says s8_tail s8_insend true).

(** In operation, with no request for the signal strength or an identification
    pending. *)
Definition s8_going (d : dv) : Prop :=
  isopen d = true /\ fReset (fl d) = false /\ fLock (fl d) = false /\ rssi d <> INT16_MAX /\ no_request (idbuf (ext d)).
(** The port is open and not handed out, no reset is due. *)
Definition s8_awake (d : dv) : Prop := isopen d = true /\ fReset (fl d) = false /\ fLock (fl d) = false.

(** The parameters of a connection, and the resolved address. *)
Definition s8_params (d : dv) : cptr * cptr * Z * Z := (apn (ext d), host d, typ d, port d).
Definition s8_address (d : dv) : bytes := str_body (ip (ext d)).

(** Lines without a meaning for the driver, like an empty line or the echo of a command. *)
Definition s8_noise (L : bytes) : Prop :=
  Forall (fun s => prefixb (bs s) L = false)
    ["ERROR"; "+CME ERROR"; "+PDP: DEACT"; "0, CONNECT"; "+CDNSGIP"; "+CIPRXGET: 1,0"; "0, CLOSE"; "SHUT OK"]%string.
(** A line that answers AT+CIFSR. *)
Definition s8_own_address (L : bytes) : Prop := s8_noise L /\ dots L = 3.

(** *** What a line does while a connection is opened or closed *)

Definition s8_wait_after (L : bytes) (w : option bytes) : option bytes :=
  match w with Some x => if prefixb x L then None else Some x | None => None end.
Definition s8_rst_after (L : bytes) (w : option bytes) (r : s8reply) : s8reply :=
  match r with
  | R8Cifsr => if dots L =? 3 then R8Ok else R8Cifsr
  | R8Cdnsgip => if dns_okb L then R8Ok else R8Cdnsgip
  | R8Cipstart => match w with None => R8Ok | Some _ => R8Cipstart end
  | r => r
  end.
Definition s8_hand (L : bytes) (d d' : dv) : Prop :=
  sst d' = sst d /\ fl d' = fl d /\ rssi d' = rssi d /\ wait d' = s8_wait_after L (wait d) /\
  rst d' = s8_rst_after L (s8_wait_after L (wait d)) (rst d) /\ apn (ext d') = apn (ext d) /\ idbuf (ext d') = idbuf (ext d) /\
  (if (match rst d with R8Cdnsgip => true | _ => false end) && dns_okb L then dns_ip (cbody L) = Some (s8_address d') else s8_address d' = s8_address d).

(** The states of a dialogue in which a connection is opened or closed. *)
Definition s8_early (d : dv) : Prop :=
  rst d = R8Ok \/ rst d = R8Cifsr \/ rst d = R8Cdnsgip \/ (rst d = R8Cipstart /\ fDisc (fl d) = false).
Definition s8_awaited : list bytes := [bs "OK"; bs "0, CONNECT OK"; bs "0, CLOSE OK"; bs "SHUT OK"; bs ">"; bs "0, SEND OK"].
Definition s8_known (d : dv) (L : bytes) : Prop :=
  s8_noise L \/ (rst d = R8Cdnsgip /\ dns_ok L) \/ (exists w, In w s8_awaited /\ prefixb w L = true).

Lemma s8_noise_inv : forall L, s8_noise L -> prefixb (bs "ERROR") L = false /\ prefixb (bs "+CME ERROR") L = false /\ prefixb (bs "+PDP: DEACT") L = false /\
  prefixb (bs "0, CONNECT") L = false /\ prefixb (bs "+CDNSGIP") L = false /\ prefixb (bs "+CIPRXGET: 1,0") L = false /\ prefixb (bs "0, CLOSE") L = false /\
  prefixb (bs "SHUT OK") L = false.
Proof. intros L H. unfold s8_noise in H. repeat match goal with H : Forall _ (_ :: _) |- _ => apply Forall_cons_iff in H as [? H] end. splits; assumption. Qed.

Lemma s8_known_inv : forall d L, s8_known d L -> s8_refused L = false /\ prefixb (bs "0, CONNECT FAIL") L = false /\
  prefixb (bs "+CIPRXGET: 1,0") L = false /\ prefixb (bs "0, CLOSED") L = false /\ (rst d = R8Cdnsgip -> dns_ok L \/ prefixb (bs "+CDNSGIP") L = false).
Proof.
  intros d L [H|[[E [H K]]|(w & Hw & HL)]].
  - apply s8_noise_inv in H as (H1 & H2 & H3 & H4 & H5 & H6 & H7 & H8). unfold s8_refused. rewrite H1, H2, H3.
    pose proof (no_prefix (bs "0, CONNECT") (bs " FAIL") L H4). pose proof (no_prefix (bs "0, CLOSE") (bs "D") L H7). splits; auto.
  - pose proof H as H'. apply prefixb_spec in H' as [t ->]. splits; try reflexivity. intros _. left. split; assumption.
  - apply prefixb_spec in HL as [t ->]. unfold s8_awaited in Hw. repeat destruct Hw as [<-|Hw]; try contradiction; splits; try reflexivity; right; reflexivity.
Qed.

Lemma s8_line_hand : forall P d ret d' L, s8_handles P d ret d' L -> s8_early d -> s8_known d L -> ret = false /\ s8_hand L d d'.
Proof.
  intros P d ret d' L (r & y & Hlen & _ & HI & E) He Hk. destruct (s8_known_inv d L Hk) as (F1 & F2 & F3 & F4 & F5).
  set (x := line_at L r y d) in *. assert (HL : lbuf x = L ++ NUL :: r) by reflexivity.
  assert (He' : s8_early x) by exact He. assert (F5' : rst x = R8Cdnsgip -> dns_ok L \/ prefixb (bs "+CDNSGIP") L = false) by exact F5.
  cut (ret = false /\ s8_hand L x d'); [intro C; exact C|]. clearbody x. clear He F5 Hk y d. rename x into d. rename He' into He. rename F5' into F5.
  pose proof HI as ((_ & _ & _ & _ & _ & _ & _ & _ & _ & Hwt & _) & Hip & Hid & _).
  unfold s8_parse in E. assert (Hx : s8_is_error d = Ok false).
  { unfold s8_is_error. unfold s8_refused in F1. apply orb_false_iff in F1 as [F1 F1c]. apply orb_false_iff in F1 as [F1a F1b].
    rewrite !(lstarts_line L r d HL Hlen) by (reflexivity || (cbn; lia)). cbn [bind]. rewrite F1a, F1b, F1c. reflexivity. }
  rewrite Hx in E. cbn [bind] in E. set (w := s8_wait_after L (wait d)).
  assert (Hs : s8_standard_reply d = Ok (set_wait w d)).
  { unfold s8_standard_reply. unfold w, s8_wait_after. destruct (wait d) as [v|] eqn:Ew.
    - destruct Hwt as [Hw1 Hw2]. rewrite (lmatch_line L r d HL Hlen) by first [apply nulfree_of; assumption | lia]. cbn [bind].
      destruct (prefixb v L); [reflexivity|]. rewrite <- Ew. destruct d; reflexivity.
    - rewrite <- Ew. destruct d; reflexivity. }
  rewrite Hs in E. cbn [bind] in E. clear Hs.
  assert (Hc : forall d2 : dv, (lbuf d2 = lbuf d \/ parsed (lbuf d2) /\ prefixb (bs "+CDNSGIP: 1") (lbuf d2) = true) ->
    (if s8_rank S8Connected <=? s8_rank (sst d2) then let* z := sim_check_connection (bs "0, CLOSED") d2 in Ok (false, z) else Ok (false, d2))%res = Ok (false, d2)).
  { intros d2 Hd2. destruct (_ <=? _); [|reflexivity]. unfold sim_check_connection.
    destruct Hd2 as [Hd2|[[K1 K2] K3]].
    - rewrite !(lstarts_line L r d2 ltac:(congruence) Hlen) by (reflexivity || (cbn; lia)). cbn [bind]. rewrite F3. cbn [bind]. rewrite F4. reflexivity.
    - rewrite !lstarts_eq by (rewrite ?K1; cbn; lia || lfree). apply prefixb_spec in K3 as [t ->]. reflexivity. }
  set (d1 := set_wait w d) in *. assert (HL1 : lbuf d1 = L ++ NUL :: r) by exact HL.
  unfold s8_special_reply in E. change (rst d1) with (rst d) in E.
  destruct He as [Er|[Er|[Er|[Er Ed]]]]; rewrite Er in E; cbn [bind] in E.
  - rewrite Hc in E by (left; reflexivity). apply ok_inj in E. apply pair_eq in E as [<- <-]. split; [reflexivity|].
    unfold s8_hand. rewrite Er. cbn [s8_rst_after andb]. splits; auto.
  - rewrite (count_char_spec "."%char) in E by (rewrite ?HL1; first [discriminate | apply in_or_app; right; left; reflexivity]). cbn [bind] in E.
    rewrite HL1, str_body_line in E. rewrite Hc in E by (left; destruct (_ =? 3); reflexivity). apply ok_inj in E. apply pair_eq in E as [<- <-]. split; [reflexivity|].
    unfold s8_hand. rewrite Er. cbn [s8_rst_after andb]. unfold dots. destruct (_ =? 3); splits; auto.
  - pose proof (dns_line L r d1 HL1 Hlen Hip) as Hw. destruct (sim_parse_dns d1) as [[ok d2]|]; [|discriminate]. cbn [bind wp] in *.
    assert (Hn : dns_okb L = true \/ prefixb (bs "+CDNSGIP") L = false) by (destruct (F5 Er) as [K|K]; [left; apply dns_okb_spec; exact K|right; exact K]).
    destruct Hw as [(E1 & E2 & E3)|[(E1 & E3)|(E1 & E2 & a & lb & E4 & E5 & E6 & E7 & E8 & E3)]]; apply pair_eq in E3 as [-> ->].
    + exfalso. destruct Hn as [K|K]; [apply dns_okb_spec in K as [_ K]; contradiction|]. apply prefixb_spec in E1 as [t ->]. discriminate K.
    + destruct Hn as [K|K]; [apply dns_okb_spec in K as [K _]; congruence|].
      assert (K0 : prefixb (bs "+CDNSGIP: 0") L = false) by exact (no_prefix (bs "+CDNSGIP") (bs ": 0") L K). rewrite K0 in E. cbn [bind] in E.
      rewrite Hc in E by (left; reflexivity). apply ok_inj in E. apply pair_eq in E as [<- <-]. split; [reflexivity|].
      assert (Ko : dns_okb L = false) by (apply not_true_is_false; intro Z; apply dns_okb_spec in Z as [Z _]; congruence).
      unfold s8_hand. rewrite Er, Ko. cbn [s8_rst_after andb]. rewrite Ko. splits; auto.
    + rewrite Hc in E by (right; split; assumption). apply ok_inj in E. apply pair_eq in E as [<- <-]. split; [reflexivity|].
      assert (Ko : dns_okb L = true) by (apply dns_okb_spec; split; assumption).
      unfold s8_hand. rewrite Er, Ko. cbn [s8_rst_after andb]. rewrite Ko. splits; auto.
      rewrite E4. f_equal. unfold s8_address. symmetry. cbn [ext set_rst set_ext set_lbuf ip set_ip]. apply str_body_free. exact E6.
  - unfold at_handle_disconnect in E. change (fDisc (fl d1)) with (fDisc (fl d)) in E. rewrite Ed in E. change (wait d1) with w in E.
    destruct w as [v|] eqn:Ew.
    + rewrite (lstarts_line L r d1 HL1 Hlen) in E by (reflexivity || (cbn; lia)). cbn [bind] in E. rewrite F2 in E. cbn [bind] in E.
      rewrite Hc in E by (left; reflexivity). apply ok_inj in E. apply pair_eq in E as [<- <-]. split; [reflexivity|].
      unfold s8_hand. rewrite Er. fold w. rewrite Ew. cbn [s8_rst_after andb]. splits; auto.
    + cbn [bind] in E. rewrite Hc in E by (left; reflexivity). apply ok_inj in E. apply pair_eq in E as [<- <-]. split; [reflexivity|].
      unfold s8_hand. rewrite Er. fold w. rewrite Ew. cbn [s8_rst_after andb]. splits; auto.
Qed.

(** *** One run() *)

Definition s8_pending (d : dv) : Prop := wait d <> None \/ rst d <> R8Ok.

Lemma s8_hear_none : forall P N d e d', s8_step P d e d' -> roomy N d e -> hears None e -> s8_going d ->
  exists dm d1 a b, s8_inv dm /\ s8_same d dm /\ keepw d dm /\ txav (io dm) + N <= txsz (io dm) /\
    e_acts e = [a; b] /\ act_put a = [] /\ olab8 dm d1 b /\ s8_output dm = Ok d1 /\ d' = set_io (io d') d1.
Proof.
  intros P N d e d' Hs ((oo & Eo) & Ht) Hn (H1 & H2 & H3 & _).
  destruct (s8_parts P d e d' oo Hs Eo) as (d1 & Hd & [(_ & [E|E] & _)|(_ & _ & l & dp & Hp & Hr)]); [congruence|congruence|].
  destruct Hp as [(F & -> & ->)|(F & _)]; [|change (fReset (fl d) = true) in F; congruence].
  destruct Hr as (a & d2 & r & Hi & [HI Hx] & Hr).
  assert (Hk : keepw (during (e_sch e) d) d2) by exact (ilab_keepw _ _ _ (s8_shape P) _ _ _ _ Hi).
  assert (Htx : txav (io d2) <= txav (io d)) by exact (ilab_tx (s8_shape P) _ _ _ _ Hi).
  destruct (ilab_io (s8_shape P) _ _ _ _ Hi) as (ev & Hst & _).
  assert (Hna : forall tk L, a <> aLine tk L) by (intros tk L ->; apply (Hn tk L); destruct Hr as [[-> _]|(b & -> & _)]; left; reflexivity).
  destruct Hr as [(_ & _ & ->)|(b & Ea & Hol & Hox)]; [exfalso; inversion Hi; subst; try discriminate; eapply Hna; reflexivity|].
  destruct Hox as (I2 & _ & Eq). exists d2, d1, a, b.
  assert (Hsame : s8_same (during (e_sch e) d) d2) by (destruct a; try exact Hx; exfalso; eapply Hna; reflexivity).
  splits; auto.
  - rewrite (sstep_txsz _ _ _ Hst). change (txsz (io (during (e_sch e) d))) with (txsz (io d)). lia.
  - inversion Hi; reflexivity.
Qed.

Lemma s8_awake_line : forall P N d e d' q, s8_step P d e d' -> roomy N d e -> hears (Some q) e -> s8_awake d -> s8_early d -> (forall L, q L -> s8_known d L) ->
  exists dm d1 a b L, s8_inv dm /\ q L /\ s8_hand L d dm /\ keepw d dm /\ txav (io dm) + N <= txsz (io dm) /\
    e_acts e = [a; b] /\ act_put a = [] /\ olab8 dm d1 b /\ s8_output dm = Ok d1 /\ d' = set_io (io d') d1.
Proof.
  intros P N d e d' q Hs ((oo & Eo) & Ht) (tk & L & Hin & HL) (H1 & H2 & H3) He Hq.
  destruct (s8_parts P d e d' oo Hs Eo) as (d1 & Hd & [(_ & [E|E] & _)|(_ & _ & l & dp & Hp & Hr)]); [congruence|congruence|].
  destruct Hp as [(F & -> & ->)|(F & _)]; [|change (fReset (fl d) = true) in F; congruence].
  destruct Hr as (a & d2 & r & Hi & [HI Hx] & Hr).
  assert (Hk : keepw (during (e_sch e) d) d2) by exact (ilab_keepw _ _ _ (s8_shape P) _ _ _ _ Hi).
  assert (Htx : txav (io d2) <= txav (io d)) by exact (ilab_tx (s8_shape P) _ _ _ _ Hi).
  destruct (ilab_io (s8_shape P) _ _ _ _ Hi) as (ev & Hst & _).
  assert (Ha : a = aLine tk L).
  { destruct Hr as [(Ea & _)|(b & Ea & Hol & _)]; rewrite Ea in Hin; cbn [app] in Hin; destruct Hin as [<-|Hin]; auto; [destruct Hin|].
    destruct Hin as [->|[]]. exfalso. inversion Hol. }
  subst a. destruct Hx as [_ Hx].
  destruct (s8_line_hand P _ r d2 L Hx He (Hq L HL)) as (Er & Y).
  destruct Hr as [(_ & _ & ->)|(b & Ea & Hol & Hox)]; [discriminate Er|].
  destruct Hox as (I2 & _ & Eq). exists d2, d1, (aLine tk L), b, L. split; [apply I2|]. split; [exact HL|]. split; [exact Y|]. splits; auto.
  rewrite (sstep_txsz _ _ _ Hst). change (txsz (io (during (e_sch e) d))) with (txsz (io d)). lia.
Qed.
Lemma s8_hear_line : forall P N d e d' q, s8_step P d e d' -> roomy N d e -> hears (Some q) e -> s8_going d -> s8_early d -> (forall L, q L -> s8_known d L) ->
  exists dm d1 a b L, s8_inv dm /\ q L /\ s8_hand L d dm /\ keepw d dm /\ txav (io dm) + N <= txsz (io dm) /\
    e_acts e = [a; b] /\ act_put a = [] /\ olab8 dm d1 b /\ s8_output dm = Ok d1 /\ d' = set_io (io d') d1.
Proof.
  intros P N d e d' q Hs Hr Hh (H1 & H2 & H3 & _) He Hq. exact (s8_awake_line P N d e d' q Hs Hr Hh (conj H1 (conj H2 H3)) He Hq).
Qed.

(** While something is awaited, nothing is sent. *)
Lemma s8_put_nil : forall P (d : dv) e d' a b dm, s8_step P d e d' -> (exists oo, e_op e = OpRun oo) -> e_acts e = [a; b] -> act_put a = [] -> olab8 dm dm b -> put (e_ev e) = [].
Proof.
  intros P d e d' a b dm Hs (oo & Eop) Ea Hpa Hol. destruct Hs as (_ & _ & _ & _ & _ & _ & Hio & _). unfold call_io in Hio. rewrite Eop in Hio. destruct Hio as [_ ->].
  rewrite Ea. unfold acts_put. cbn [map concat]. rewrite Hpa, app_nil_r. cbn [app].
  destruct (olab_io (s8_shape P) _ _ _ Hol) as (ev & T1 & _ & T2 & _). apply sstep_log in T1. rewrite <- T2.
  replace ev with (@nil event); [reflexivity|]. rewrite <- (app_nil_r (slog (io dm))) in T1 at 1. apply app_inv_head in T1. exact T1.
Qed.
Lemma s8_pending_output : forall d d1 : dv, s8_output d = Ok d1 -> s8_pending d -> d1 = d.
Proof.
  intros d d1 H Hp. unfold s8_output in H. destruct (wait d) eqn:Ew; [apply ok_inj in H; auto|].
  destruct Hp as [Hp|Hp]; [congruence|]. destruct (rst d); try (apply ok_inj in H; auto); congruence.
Qed.

Lemma s8_still_none : forall P N d e d', s8_step P d e d' -> roomy N d e -> hears None e -> s8_going d -> s8_pending d ->
  put (e_ev e) = [] /\ s8_going d' /\ s8_same d d' /\ keepw d d'.
Proof.
  intros P N d e d' Hs Hr Hh Hg Hp.
  destruct (s8_hear_none P N d e d' Hs Hr Hh Hg) as (dm & d1 & a & b & HI & Hsame & Hk & Ht & Ea & Hpa & Hol & Eo & Ed).
  pose proof Hsame as (S1 & S2 & S3 & S4 & S5 & S6 & S7 & S8 & S9 & S10 & S11 & S12).
  assert (Hpm : s8_pending dm) by (unfold s8_pending in *; rewrite S4, S2; exact Hp).
  pose proof (s8_pending_output dm d1 Eo Hpm) as ->. rewrite Ed. pose proof Hk as ((K1 & _) & _).
  split; [exact (s8_put_nil P d e d' a b dm Hs (proj1 Hr) Ea Hpa Hol)|]. split; [|split; [exact Hsame|exact Hk]].
  destruct Hg as (G1 & G2 & G3 & G4 & G5). unfold s8_going. cbn [isopen fl rssi ext set_io]. rewrite K1, S8, S12, S5, S6. splits; auto.
Qed.

Lemma s8_still_line : forall P N d e d' q, s8_step P d e d' -> roomy N d e -> hears (Some q) e -> s8_going d -> s8_early d -> (forall L, q L -> s8_known d L) ->
  (forall L, q L -> s8_wait_after L (wait d) <> None \/ s8_rst_after L (s8_wait_after L (wait d)) (rst d) <> R8Ok) ->
  put (e_ev e) = [] /\ s8_going d' /\ keepw d d' /\ exists L, q L /\ s8_hand L d d'.
Proof.
  intros P N d e d' q Hs Hr Hh Hg He Hq Hp.
  destruct (s8_hear_line P N d e d' q Hs Hr Hh Hg He Hq) as (dm & d1 & a & b & L & HI & HL & Hx & Hk & Ht & Ea & Hpa & Hol & Eo & Ed).
  pose proof Hx as (S1 & S2 & S3 & S4 & S5 & S6 & S7 & S8).
  assert (Hpm : s8_pending dm) by (unfold s8_pending in *; rewrite S4, S5; exact (Hp L HL)).
  pose proof (s8_pending_output dm d1 Eo Hpm) as ->. rewrite Ed. pose proof Hk as ((K1 & _) & _).
  split; [exact (s8_put_nil P d e d' a b dm Hs (proj1 Hr) Ea Hpa Hol)|]. split; [|split; [exact Hk|exists L; split; [exact HL|exact Hx]]].
  destruct Hg as (G1 & G2 & G3 & G4 & G5). unfold s8_going. cbn [isopen fl rssi ext set_io]. rewrite K1, S2, S3, S7. splits; auto.
Qed.

(** The run() that reads what was awaited gets to its second half with nothing to
    wait for; [t]: the resolved address afterwards. *)
Inductive s8_fits : option (bytes -> Prop) -> dv -> bytes -> Prop :=
| f8_none d : wait d = None -> rst d = R8Ok -> s8_fits None d (s8_address d)
| f8_reply d w : wait d = Some w -> rst d = R8Ok \/ (rst d = R8Cipstart /\ fDisc (fl d) = false) ->
    In w s8_awaited -> s8_fits (reply w) d (s8_address d)
| f8_own d : wait d = None -> rst d = R8Cifsr -> s8_fits (Some s8_own_address) d (s8_address d)
| f8_dns d a : wait d = None -> rst d = R8Cdnsgip -> s8_fits (Some (resolved a)) d a.

Lemma s8_free_output : forall (x x1 : dv), s8_inv x -> s8_output x = Ok x1 -> wait x = None -> rst x = R8Ok -> s8_going x -> txav (io x) + 20 <= txsz (io x) ->
    exists y, quiet (io x) y /\ s8_machine (set_io y x) = Ok x1.
Proof.
  intros x x1 HI Hx K5 K6 (_ & _ & _ & K11 & K12) Ht. pose proof HI as ((Hw & _) & _ & Hid & _).
  unfold s8_output in Hx. rewrite K5, K6 in Hx. cbn [r8_ok negb] in Hx. unfold d_space in Hx.
  destruct (s_space_q (io x) Hw) as (y & E1 & Q). rewrite E1 in Hx. cbn [bind] in Hx. exists y. split; [exact Q|].
  destruct (Nat.ltb_spec (txsz y - txav y) 20) as [Hlt|Hge].
  - exfalso. apply quiet_ioeff in Q. pose proof (ioeff_av _ _ _ _ Q) as [_ A]. pose proof (ioeff_txsz _ _ _ _ Q). cbn [length] in A. lia.
  - change (rssi (set_io y x)) with (rssi x) in Hx.
    destruct (Z.eqb_spec (rssi x) INT16_MAX); [contradiction|]. cbn [andb] in Hx. rewrite (no_id_request _ _ _ (set_io y x) K12 Hid) in Hx. cbn [bind] in Hx. exact Hx.
Qed.

Lemma s8_fits_line : forall q d t L, s8_fits (Some q) d t -> q L -> s8_early d /\ s8_known d L /\ s8_wait_after L (wait d) = None /\
  s8_rst_after L (s8_wait_after L (wait d)) (rst d) = R8Ok.
Proof.
  intros q d t L Hf HL. remember (Some q) as p eqn:Ep. destruct Hf as [d Hw Hr|d w Hw Hr Hin|d Hw Hr|d a Hw Hr]; try discriminate Ep.
  - unfold reply in Ep. injection Ep as <-. rewrite Hw. cbn [s8_wait_after]. rewrite HL.
    split; [unfold s8_early; tauto|]. split; [right; right; exists w; auto|]. split; [reflexivity|]. destruct Hr as [->|[-> _]]; reflexivity.
  - injection Ep as <-. destruct HL as [Hn Hd]. rewrite Hw, Hr. cbn [s8_wait_after s8_rst_after]. rewrite Hd. splits; try reflexivity; [unfold s8_early; tauto|left; exact Hn].
  - injection Ep as <-. destruct HL as [Hn Hd]. rewrite Hw, Hr. cbn [s8_wait_after s8_rst_after]. rewrite (proj2 (dns_okb_spec L) Hn). splits; try reflexivity; [unfold s8_early; tauto|right; left; auto].
Qed.
Lemma s8_fits_address : forall q d t L d', s8_fits (Some q) d t -> q L -> s8_hand L d d' -> s8_address d' = t.
Proof.
  intros q d t L d' Hf HL (_ & _ & _ & _ & _ & _ & _ & H). remember (Some q) as p eqn:Ep. destruct Hf as [d Hw Hr|d w Hw Hr Hin|d Hw Hr|d a Hw Hr]; try discriminate Ep.
  - destruct Hr as [Hr|[Hr _]]; rewrite Hr in H; exact H.
  - rewrite Hr in H. exact H.
  - injection Ep as <-. destruct HL as [Hn Hd]. rewrite Hr, (proj2 (dns_okb_spec L) Hn) in H. cbn [andb] in H. congruence.
Qed.

Lemma s8_ready : forall P N p d e d' t, s8_step P d e d' -> roomy N d e -> hears p e -> s8_going d -> s8_fits p d t -> 20 <= N ->
  exists dm d1 y, s8_inv dm /\ s8_going dm /\ wait dm = None /\ rst dm = R8Ok /\ sst dm = sst d /\ s8_params dm = s8_params d /\ s8_address dm = t /\
    (fIp (fl dm) = fIp (fl d) /\ fConnect (fl dm) = fConnect (fl d) /\ fDisc (fl dm) = fDisc (fl d) /\ fData (fl dm) = fData (fl d)) /\
    keepw d dm /\ txav (io dm) + N <= txsz (io dm) /\ quiet (io dm) y /\ s8_machine (set_io y dm) = Ok d1 /\
    d' = set_io (io d') d1 /\ (forall q, ioeff (io dm) (io d1) [] q -> put (e_ev e) = q).
Proof.
  intros P N p d e d' t Hs Hr Hh Hg Hf HN.
  assert (HP : forall x1 x2 a b q, e_acts e = [a; b] -> act_put a = [] -> olab8 x1 x2 b -> ioeff (io x1) (io x2) [] q -> put (e_ev e) = q).
  { intros x1 x2 a b q Ea Ha Ho Hi. destruct Hr as ((oo & Eop) & _). destruct Hs as (_ & _ & _ & _ & _ & _ & Hio & _). unfold call_io in Hio. rewrite Eop in Hio. destruct Hio as [_ ->].
    rewrite Ea. unfold acts_put. cbn [map concat]. rewrite Ha, app_nil_r. cbn [app].
    refine (olab_put _ _ _ _ _ _ _ _ x1 x2 b [] q _ Ho Hi). intros z Hz. destruct (olab_io (s8_shape P) _ _ _ Hz) as (ev & T1 & _ & T2 & _). eauto. }
  pose proof Hg as (G1 & G2 & G3 & G4 & G5).
  destruct p as [q|].
  - assert (He : forall L, q L -> s8_early d) by (intros L HL; apply (s8_fits_line q d t L Hf HL)).
    assert (He' : s8_early d) by (destruct Hh as (tk & L & _ & HL); exact (He L HL)).
    destruct (s8_hear_line P N d e d' q Hs Hr Hh Hg He' (fun L HL => proj1 (proj2 (s8_fits_line q d t L Hf HL)))) as (dm & d1 & a & b & L & HI & HL & Hx & Hk & Ht & Ea & Hpa & Hol & Eo & Ed).
    destruct (s8_fits_line q d t L Hf HL) as (_ & _ & X1 & X2). pose proof (s8_fits_address q d t L dm Hf HL Hx) as X3.
    destruct Hx as (S1 & S2 & S3 & S4 & S5 & S6 & S7 & _). rewrite X1 in S4. rewrite X2 in S5.
    pose proof Hk as ((K1 & K2 & K3 & K4 & K5 & K6) & K7).
    assert (Hgm : s8_going dm) by (unfold s8_going; rewrite K1, S2, S3, S7; splits; auto).
    destruct (s8_free_output dm d1 HI Eo S4 S5 Hgm) as (y & Q & Hm); [lia|].
    exists dm, d1, y. splits; auto; try congruence.
    + unfold s8_params. rewrite S6, K4, K5, K6. reflexivity.
    + intros z Hz. exact (HP dm d1 a b z Ea Hpa Hol Hz).
  - remember (@None (bytes -> Prop)) as p eqn:Ep. destruct Hf as [d Hw Hr0|d w Hw Hr0 Hin|d Hw Hr0|d a Hw Hr0]; try discriminate Ep. subst.
    destruct (s8_hear_none P N d e d' Hs Hr Hh Hg) as (dm & d1 & a & b & HI & (S1 & S2 & S3 & S4 & S5 & S6 & S7 & S8 & S9 & S10 & S11 & S12) & Hk & Ht & Ea & Hpa & Hol & Eo & Ed).
    pose proof Hk as ((K1 & K2 & K3 & K4 & K5 & K6) & K7).
    assert (Hgm : s8_going dm) by (unfold s8_going; rewrite K1, S8, S5, S6, S12; splits; auto).
    destruct (s8_free_output dm d1 HI Eo ltac:(congruence) ltac:(congruence) Hgm) as (y & Q & Hm); [lia|].
    exists dm, d1, y. splits; auto; try congruence.
    + unfold s8_params. rewrite S6, K4, K5, K6. reflexivity.
    + unfold s8_address. rewrite S6. reflexivity.
    + intros z Hz. exact (HP dm d1 a b z Ea Hpa Hol Hz).
Qed.

(** A state with a command sends it. *)
Definition s8_turn (d d1 : dv) (c : bytes) : Prop :=
  wroteb (io d) (io d1) c /\ s8_next d d1 (s8_after (sst d)) /\ keep d d1 /\ rssi d1 = rssi d /\ ext d1 = ext d /\
  fReset (fl d1) = fReset (fl d) /\ fDisc (fl d1) = fDisc (fl d) /\ fLock (fl d1) = fLock (fl d) /\ fIp (fl d1) = fIp (fl d).

Lemma s8_command_turn : forall d c, s8_inv d -> wait d = None -> rst d = R8Ok -> (sst d = S8SendCifsr -> fDisc (fl d) = false) -> (sst d = S8SendCipclose -> fIp (fl d) = true) ->
  (sst d = S8SendDnsQuery -> txav (io d) + length (text (host d)) + 20 <= txsz (io d)) -> sst d <> S8SendCiprxget4 ->
  s8_command (sst d) (apn (ext d)) (host d) (ip (ext d)) (typ d) (port d) = Some c ->
  wp True (s8_machine d) (fun x => s8_turn d x (c ++ [CR; LF])).
Proof.
  intros d c H Hwn Hrst Hdi Hup Hdn Hn4 Hc. open_inv d H. subst rs0 wt0. unfold s8_machine, at_handle_disconnect. gs. destruct ss0; try discriminate Hc; try (exfalso; exact (Hn4 eq_refl)); gs.
  all: try (cbn [sst] in Hdi; specialize (Hdi eq_refl); cbn [fl] in Hdi; rewrite Hdi).
  all: try (cbn [sst] in Hup; specialize (Hup eq_refl); cbn [fl] in Hup; rewrite Hup).
  all: unfold s8_command in Hc; apply some_eq in Hc; subst c; syms; try exact I.
  all: try nulip.
  all: unfold s8_turn, s8_next, keep; gs.
  all: try match goal with H : ?v = PStr ?h, I : ioeff _ ?y [] [], K : txsz ?y - txav ?y < clen ?h + 20 |- _ =>
    exfalso; pose proof (ioeff_av _ _ _ _ I) as [_ ?]; pose proof (ioeff_txsz _ _ _ _ I); subst v; specialize (Hdn eq_refl); unfold text in Hdn; change (clen h) with (length (cbody h)) in K; cbn [length] in *; lia end.
  all: splits; try reflexivity; try merge. all: try sayleaf.
  all: subst; refine (wroteb_ioeff _ _ _ _ H0 _); unfold quoted, text; repeat rewrite <- app_assoc; exact H2.
Qed.

(** A run() in a state with a command sends it. *)
Lemma s8_round : forall P N p d e d' c t, s8_step P d e d' -> roomy N d e -> hears p e -> s8_going d -> s8_fits p d t -> 20 <= N ->
  s8_command (sst d) (apn (ext d)) (host d) (t ++ [NUL]) (typ d) (port d) = Some c -> length c + 2 <= N -> sst d <> S8SendCiprxget4 ->
  (sst d = S8SendCifsr -> fDisc (fl d) = false) -> (sst d = S8SendCipclose -> fIp (fl d) = true) -> (sst d = S8SendDnsQuery -> length (text (host d)) + 20 <= N) ->
  put (e_ev e) = c ++ [CR; LF] /\ s8_going d' /\ s8_next d d' (s8_after (sst d)) /\ s8_params d' = s8_params d /\ s8_address d' = t /\
  fDisc (fl d') = fDisc (fl d) /\ fIp (fl d') = fIp (fl d).
Proof.
  intros P N p d e d' c t Hs Hr Hh Hg Hf HN Hc Hlen Hn4 Hdi Hup Hdn.
  destruct (s8_ready P N p d e d' t Hs Hr Hh Hg Hf HN) as (dm & d1 & y & HI & (M1 & M2 & M3 & M5 & M6) & Hw & Hrs & Hst & Hpa & Had & (Z1 & Z2 & Z3 & Z4) & Hk & Ht & Q & Hm & Ed & Hput).
  assert (HIy : s8_inv (set_io y dm)) by (split; [apply dok_quiet; [apply HI|exact Q]|apply HI]).
  pose proof Hpa as Hpa'. unfold s8_params in Hpa'. injection Hpa' as E2 E3 E4 E5.
  pose proof (s8_command_turn (set_io y dm) c HIy Hw Hrs) as T.
  change (sst (set_io y dm)) with (sst dm) in T. change (ext (set_io y dm)) with (ext dm) in T. change (fl (set_io y dm)) with (fl dm) in T. change (io (set_io y dm)) with y in T.
  change (host (set_io y dm)) with (host dm) in T. change (typ (set_io y dm)) with (typ dm) in T. change (port (set_io y dm)) with (port dm) in T.
  assert (Hnt : ~ In NUL t) by (rewrite <- Had; apply str_body_no_nul).
  assert (Hc' : s8_command (sst d) (apn (ext d)) (host d) (ip (ext dm)) (typ d) (port d) = Some c).
  { rewrite <- Hc. unfold s8_command. destruct (sst d); try reflexivity. rewrite (str_body_free t [] Hnt). unfold s8_address in Had. rewrite Had. reflexivity. }
  rewrite Hst, E2, E3, E4, E5, Z1, Z3 in T. specialize (T Hdi Hup).
  specialize (T ltac:(intro K; specialize (Hdn K); pose proof (quiet_ioeff _ _ Q) as QI; pose proof (ioeff_av _ _ _ _ QI) as [_ A]; pose proof (ioeff_txsz _ _ _ _ QI); cbn [length] in A; lia) Hn4 Hc').
  rewrite Hm in T. cbn [wp] in T.
  destruct T as (T1 & (T2 & T3 & T4) & (T5 & _ & _ & T6 & T7 & T8) & T9 & T10 & T11 & T12 & T13 & T14). cbn [io set_io] in *.
  change (sst (set_io y dm)) with (sst dm) in *. rewrite Hst in *. cbn [fl typ host port ext rssi isopen set_io] in *.
  destruct (wroteb_quiet _ _ _ _ Q T1) as (q & I1 & _ & I2). splits.
  - rewrite (Hput q I1). apply I2. rewrite app_length. cbn [length]. lia.
  - rewrite Ed. unfold s8_going. cbn [isopen fl rssi ext set_io]. rewrite T5, T9, T10, T11, T13. splits; auto.
  - rewrite Ed. unfold s8_next. splits; assumption.
  - rewrite <- Hpa. rewrite Ed. unfold s8_params. cbn [ext host typ port set_io]. rewrite T6, T7, T8, T10. reflexivity.
  - rewrite Ed. unfold s8_address in *. cbn [ext set_io]. rewrite T10. exact Had.
  - rewrite Ed. cbn [fl set_io]. congruence.
  - rewrite Ed. cbn [fl set_io]. congruence.
Qed.

(** The states without a command. *)
Lemma s8_begin : forall P N d e d' t, s8_step P d e d' -> roomy N d e -> hears None e -> s8_going d -> s8_fits None d t -> 20 <= N ->
  sst d = S8NotConnected -> fConnect (fl d) = true ->
  put (e_ev e) = [] /\ s8_going d' /\ sst d' = S8Connecting /\ wait d' = None /\ rst d' = R8Ok /\ s8_params d' = s8_params d /\ s8_address d' = t /\ fDisc (fl d') = fDisc (fl d).
Proof.
  intros P N d e d' t Hs Hr Hh Hg Hf HN E F.
  destruct (s8_ready P N None d e d' t Hs Hr Hh Hg Hf HN) as (dm & d1 & y & HI & (M1 & M2 & M3 & M5 & M6) & Hw & Hrs & Hst & Hpa & Had & (Z1 & Z2 & Z3 & Z4) & Hk & Ht & Q & Hm & Ed & Hput).
  unfold s8_machine, at_handle_connect in Hm. change (sst (set_io y dm)) with (sst dm) in Hm. rewrite Hst, E in Hm.
  change (fConnect (fl (set_cst csNotConnected (dev_set_delay 10%Z (set_io y dm))))) with (fConnect (fl dm)) in Hm. rewrite Z2, F in Hm.
  cbn [snd] in Hm. apply ok_inj in Hm. subst d1. rewrite Ed. clear Ed. split; [apply Hput, quiet_ioeff; exact Q|]. split; [exact (conj M1 (conj M2 (conj M3 (conj M5 M6))))|]. splits; auto.
Qed.

Lemma s8_finish : forall P N p d e d' t, s8_step P d e d' -> roomy N d e -> hears p e -> s8_going d -> s8_fits p d t -> 20 <= N ->
  sst d = S8FinalizeConnect ->
  put (e_ev e) = [] /\ s8_going d' /\ sst d' = S8Connected /\ wait d' = None /\ rst d' = R8Ok /\ s8_params d' = s8_params d /\ s8_address d' = t /\
  ip_is_connected d' = true /\ fIp (fl d') = true.
Proof.
  intros P N p d e d' t Hs Hr Hh Hg Hf HN E.
  destruct (s8_ready P N p d e d' t Hs Hr Hh Hg Hf HN) as (dm & d1 & y & HI & (M1 & M2 & M3 & M5 & M6) & Hw & Hrs & Hst & Hpa & Had & (Z1 & Z2 & Z3 & Z4) & Hk & Ht & Q & Hm & Ed & Hput).
  unfold s8_machine in Hm. change (sst (set_io y dm)) with (sst dm) in Hm. rewrite Hst, E in Hm.
  apply ok_inj in Hm. subst d1. rewrite Ed. clear Ed. split; [apply Hput, quiet_ioeff; exact Q|]. split; [exact (conj M1 (conj M2 (conj M3 (conj M5 M6))))|]. splits; auto.
Qed.

Lemma s8_leave : forall P N d e d' t, s8_step P d e d' -> roomy N d e -> hears None e -> s8_going d -> s8_fits None d t -> 20 <= N ->
  sst d = S8Connected -> fDisc (fl d) = true -> fIp (fl d) = true -> fData (fl d) = false -> avail (wbuf d) = 0 ->
  put (e_ev e) = [] /\ s8_going d' /\ sst d' = S8SendCipclose /\ wait d' = None /\ rst d' = R8Ok /\ s8_params d' = s8_params d /\ s8_address d' = t /\
  fIp (fl d') = true /\ fDisc (fl d') = false.
Proof.
  intros P N d e d' t Hs Hr Hh Hg Hf HN E F1 F2 F3 F4.
  destruct (s8_ready P N None d e d' t Hs Hr Hh Hg Hf HN) as (dm & d1 & y & HI & (M1 & M2 & M3 & M5 & M6) & Hw & Hrs & Hst & Hpa & Had & (Z1 & Z2 & Z3 & Z4) & Hk & Ht & Q & Hm & Ed & Hput).
  destruct Hk as ((_ & _ & K3 & _) & _).
  unfold s8_machine in Hm. change (sst (set_io y dm)) with (sst dm) in Hm. rewrite Hst, E in Hm. unfold s8_connected in Hm.
  change (wbuf (set_io y dm)) with (wbuf dm) in Hm. rewrite K3, F4 in Hm. change (fl (set_io y dm)) with (fl dm) in Hm. rewrite Z4, F3 in Hm.
  change (fl (set_cst csConnected (set_io y dm))) with (fl dm) in Hm. rewrite Z1, F2 in Hm. unfold at_handle_disconnect in Hm.
  change (fl (set_cst csConnected (set_io y dm))) with (fl dm) in Hm. rewrite Z3, F1 in Hm. cbn [Nat.ltb Nat.leb] in Hm.
  apply ok_inj in Hm. subst d1. rewrite Ed. clear Ed. split; [apply Hput, quiet_ioeff; exact Q|]. split; [exact (conj M1 (conj M2 (conj M3 (conj M5 M6))))|]. splits; auto. cbn. congruence.
Qed.

Lemma s8_closed : forall P N p d e d' t, s8_step P d e d' -> roomy N d e -> hears p e -> s8_going d -> s8_fits p d t -> 20 <= N ->
  sst d = S8FinalizeDisconnect ->
  put (e_ev e) = [] /\ s8_going d' /\ sst d' = S8NotConnected /\ wait d' = None /\ rst d' = R8Ok /\ s8_params d' = s8_params d /\ ip_is_idle d' = true /\ fDisc (fl d') = fDisc (fl d).
Proof.
  intros P N p d e d' t Hs Hr Hh Hg Hf HN E.
  destruct (s8_ready P N p d e d' t Hs Hr Hh Hg Hf HN) as (dm & d1 & y & HI & (M1 & M2 & M3 & M5 & M6) & Hw & Hrs & Hst & Hpa & Had & (Z1 & Z2 & Z3 & Z4) & Hk & Ht & Q & Hm & Ed & Hput).
  unfold s8_machine in Hm. change (sst (set_io y dm)) with (sst dm) in Hm. rewrite Hst, E in Hm.
  apply ok_inj in Hm. subst d1. rewrite Ed. clear Ed. split; [apply Hput, quiet_ioeff; exact Q|]. split; [exact (conj M1 (conj M2 (conj M3 (conj M5 M6))))|]. splits; auto.
Qed.

(** *** Dialogues *)

Lemma s8_look : forall P (d : dv) e d', s8_step P d e d' -> looks (e_op e) = true -> d' = set_io (io d') d /\ put (e_ev e) = [].
Proof.
  intros P d e d' (_ & _ & _ & H & _ & _ & Hio & _) Hl. split; [exact (looked _ _ _ _ _ _ _ _ _ _ _ H Hl)|exact (looked_put _ _ _ _ _ _ Hio Hl)].
Qed.
Lemma s8_look_keeps : forall P (K : dv -> Prop), (forall y x, K x -> K (set_io y x)) ->
  forall x e x', s8_step P x e x' -> looks (e_op e) = true -> K x -> K x' /\ put (e_ev e) = [].
Proof. intros P K HK x e x' Hs Hl H. destruct (s8_look P x e x' Hs Hl) as [E1 E2]. split; [rewrite E1; apply HK; exact H|exact E2]. Qed.

(** What waiting does not change. *)
Definition s8_alike (d x : dv) : Prop :=
  s8_going x /\ sst x = sst d /\ rst x = rst d /\ s8_params x = s8_params d /\ s8_address x = s8_address d /\
  fIp (fl x) = fIp (fl d) /\ fDisc (fl x) = fDisc (fl d) /\ fConnect (fl x) = fConnect (fl d) /\ fData (fl x) = fData (fl d) /\ (wbuf x, toWrite x) = (wbuf d, toWrite d).

Lemma s8_alike_same : forall d x x', s8_alike d x -> s8_going x' -> s8_same x x' -> keepw x x' -> s8_alike d x'.
Proof.
  intros d x x' (A1 & A2 & A3 & A4 & A5 & A6 & A7 & A8 & A9 & A10) Hg (S1 & S2 & S3 & S4 & S5 & S6 & S7 & S8 & S9 & S10 & S11 & S12) ((K1 & K2 & K3 & K4 & K5 & K6) & K7).
  unfold s8_alike, s8_params, s8_address in *. rewrite S6, K4, K5, K6. splits; auto; congruence.
Qed.
Lemma s8_alike_noise : forall d x x' L, s8_alike d x -> s8_going x' -> s8_noise L -> (rst x = R8Cifsr -> dots L <> 3) -> (rst x = R8Cipstart -> s8_wait_after L (wait x) <> None) ->
  s8_hand L x x' -> keepw x x' -> s8_alike d x'.
Proof.
  intros d x x' L (A1 & A2 & A3 & A4 & A5 & A6 & A7 & A8 & A9 & A10) Hg Hn Hd Hc (S1 & S2 & S3 & S4 & S5 & S6 & S7 & S8) ((K1 & K2 & K3 & K4 & K5 & K6) & K7).
  assert (Ko : dns_okb L = false).
  { apply s8_noise_inv in Hn as (_ & _ & _ & _ & Hn & _). apply not_true_is_false; intro Z; apply dns_okb_spec in Z as [Z _]. apply prefixb_spec in Z as [u ->]. discriminate Hn. }
  rewrite Ko, andb_false_r in S8. unfold s8_alike, s8_params. rewrite S2, S6, K4, K5, K6. unfold s8_params in A4. splits; auto; try congruence.
  rewrite S5, <- A3. unfold s8_rst_after. rewrite Ko. destruct (rst x) eqn:Er; try reflexivity.
  - destruct (Nat.eqb_spec (dots L) 3); [exfalso; exact (Hd eq_refl e)|reflexivity].
  - destruct (s8_wait_after L (wait x)); [reflexivity|]. exfalso. exact (Hc eq_refl eq_refl).
Qed.

(** Waiting for what [w] and the reply state say. *)
Lemma s8_idle : forall P N (d x : dv) e x' q, s8_step P x e x' -> roomy N x e -> aside s8_noise q e -> s8_early d -> s8_pending d ->
  (forall L, s8_noise L -> ~ q L -> s8_wait_after L (wait d) = wait d /\ (rst d = R8Cifsr -> dots L <> 3)) ->
  (rst d = R8Cipstart -> wait d <> None) ->
  s8_alike d x /\ wait x = wait d -> (s8_alike d x' /\ wait x' = wait d) /\ put (e_ev e) = [].
Proof.
  intros P N d x e x' q Hs Hr Ha He Hp Hq Hc [Hx Hw]. pose proof Hx as (A1 & A2 & A3 & A4 & A5 & A6 & A7 & A8 & A9 & A10).
  assert (Hpx : s8_pending x) by (unfold s8_pending in *; rewrite Hw, A3; exact Hp).
  assert (Hex : s8_early x) by (unfold s8_early in *; rewrite A3, A7; exact He).
  destruct Ha as [Hh|Hh].
  - destruct (s8_still_none P N x e x' Hs Hr Hh A1 Hpx) as (B1 & B2 & B3 & B4). split; [|exact B1]. split; [exact (s8_alike_same d x x' Hx B2 B3 B4)|].
    destruct B3 as (_ & _ & _ & B3 & _). congruence.
  - destruct (s8_still_line P N x e x' _ Hs Hr Hh A1 Hex) as (B1 & B2 & B3 & L & [HL HnL] & B4).
    + intros L [HL _]. left. exact HL.
    + intros L [HL HnL]. destruct (Hq L HL HnL) as [E1 E2]. rewrite Hw, E1, A3. destruct Hp as [Hp|Hp]; [left; exact Hp|]. right.
      unfold s8_rst_after. destruct (rst d) eqn:Er; try discriminate; try (exfalso; apply Hp; reflexivity).
      * destruct (Nat.eqb_spec (dots L) 3) as [E|E]; [exfalso; exact (E2 eq_refl E)|discriminate].
      * apply s8_noise_inv in HL as (_ & _ & _ & _ & HL & _). destruct (dns_okb L) eqn:K; [|discriminate]. apply dns_okb_spec in K as [K _]. apply prefixb_spec in K as [u ->]. discriminate HL.
      * destruct (wait d); [discriminate|]. exfalso. exact (Hc eq_refl eq_refl).
    + destruct (Hq L HL HnL) as [E1 E2]. split; [|exact B1]. pose proof B4 as (_ & _ & _ & B5 & _). rewrite Hw, E1 in B5. split; [|exact B5].
      apply (s8_alike_noise d x x' L Hx B2 HL); [intro K; apply E2; congruence|intro K; rewrite Hw, E1; apply Hc; congruence|exact B4|exact B3].
Qed.

Lemma s8_alike_refl : forall d, s8_going d -> s8_alike d d.
Proof. intros d H. unfold s8_alike. splits; auto. Qed.

(** Up to the next run() that matters. *)
Lemma s8_meet : forall P N p ps d tr d' t, dialogue (s8_step P) s8_noise N (p :: ps) d tr d' -> s8_going d -> s8_fits p d t ->
  exists d1 e d2 tr2, sent tr = put (e_ev e) ++ sent tr2 /\ s8_alike d d1 /\ wait d1 = wait d /\ s8_fits p d1 t /\
    s8_step P d1 e d2 /\ roomy N d1 e /\ hears p e /\ dialogue (s8_step P) s8_noise N ps d2 tr2 d'.
Proof.
  intros P N p ps d tr d' t Hd Hg Hf.
  destruct (dialogue_next (s8_step P) s8_noise N p ps d tr d' (fun x => s8_alike d x /\ wait x = wait d)) as (tr1 & e & tr2 & d1 & d2 & E & Hse & [K1 K2] & Hs & Hr & Hh & Hd2).
  - apply s8_look_keeps. intros y x H. exact H.
  - intros q Hp x e x' Hs Hr Hh K. remember p as p' eqn:Ep'. rewrite Ep' in Hf.
    assert (Hn : forall L, s8_noise L -> dns_okb L = false).
    { intros L HL. apply s8_noise_inv in HL as (_ & _ & _ & _ & HL & _). apply not_true_is_false; intro Z; apply dns_okb_spec in Z as [Z _]. apply prefixb_spec in Z as [u ->]. discriminate HL. }
    subst p'. destruct Hf as [d Hw Hr0|d w Hw Hr0 Hin|d Hw Hr0|d a Hw Hr0]; try discriminate Hp.
    + unfold reply in Hp. injection Hp as <-. apply (s8_idle P N d x e x' _ Hs Hr Hh); [unfold s8_early; tauto|left; congruence| |congruence|exact K].
      intros L HL HnL. apply not_true_is_false in HnL. rewrite Hw. cbn [s8_wait_after]. rewrite HnL. split; [reflexivity|]. destruct Hr0 as [->|[-> _]]; discriminate.
    + injection Hp as <-. apply (s8_idle P N d x e x' _ Hs Hr Hh); [unfold s8_early; tauto|right; congruence| |congruence|exact K].
      intros L HL HnL. rewrite Hw. split; [reflexivity|]. intros _ E. apply HnL. split; assumption.
    + injection Hp as <-. apply (s8_idle P N d x e x' _ Hs Hr Hh); [unfold s8_early; tauto|right; congruence| |congruence|exact K].
      intros L HL HnL. rewrite Hw. split; [reflexivity|]. congruence.
  - exact Hd.
  - split; [apply s8_alike_refl; exact Hg|reflexivity].
  - exists d1, e, d2, tr2. splits; auto.
    + rewrite E, sent_app, Hse. reflexivity.
    + pose proof K1 as (A1 & A2 & A3 & A4 & A5 & A6 & A7 & _). destruct Hf as [d Hw Hr0|d w Hw Hr0 Hin|d Hw Hr0|d a Hw Hr0].
      * rewrite <- A5. apply f8_none; congruence.
      * rewrite <- A5. apply f8_reply; [congruence|rewrite A3, A7; exact Hr0|exact Hin].
      * rewrite <- A5. apply f8_own; congruence.
      * apply f8_dns; congruence.
Qed.

Lemma s8_talk : forall P N p ps d tr d' c t, dialogue (s8_step P) s8_noise N (p :: ps) d tr d' -> s8_going d -> s8_fits p d t -> 20 <= N ->
  s8_command (sst d) (apn (ext d)) (host d) (t ++ [NUL]) (typ d) (port d) = Some c -> length c + 2 <= N -> sst d <> S8SendCiprxget4 ->
  (sst d = S8SendCifsr -> fDisc (fl d) = false) -> (sst d = S8SendCipclose -> fIp (fl d) = true) -> (sst d = S8SendDnsQuery -> length (text (host d)) + 20 <= N) ->
  exists d2 tr2, sent tr = (c ++ [CR; LF]) ++ sent tr2 /\ s8_going d2 /\ s8_next d d2 (s8_after (sst d)) /\ s8_params d2 = s8_params d /\ s8_address d2 = t /\
    fDisc (fl d2) = fDisc (fl d) /\ fIp (fl d2) = fIp (fl d) /\ dialogue (s8_step P) s8_noise N ps d2 tr2 d'.
Proof.
  intros P N p ps d tr d' c t Hd Hg Hf HN Hc Hlen Hn4 Hdi Hup Hdn.
  destruct (s8_meet P N p ps d tr d' t Hd Hg Hf) as (d1 & e & d2 & tr2 & E & (A1 & A2 & A3 & A4 & A5 & A6 & A7 & A8 & A9 & A10) & Hw & Hf1 & Hs & Hr & Hh & Hd2).
  pose proof A4 as A4'. unfold s8_params in A4'. injection A4' as E2 E3 E4 E5.
  destruct (s8_round P N p d1 e d2 c t Hs Hr Hh A1 Hf1 HN) as (B1 & B2 & B3 & B4 & B5 & B6 & B7).
  - rewrite A2, E2, E3, E4, E5. exact Hc.
  - exact Hlen.
  - congruence.
  - rewrite A2, A7. exact Hdi.
  - rewrite A2, A6. exact Hup.
  - rewrite A2, E3. exact Hdn.
  - exists d2, tr2. rewrite E, B1. rewrite A2 in B3. split; [reflexivity|]. split; [exact B2|]. split; [exact B3|]. splits; auto; congruence.
Qed.

(** *** The address of the peer: "OK" and the address arrive in either order *)

Lemma s8_noise_dns : forall L, s8_noise L -> dns_okb L = false.
Proof.
  intros L HL. apply s8_noise_inv in HL as (_ & _ & _ & _ & HL & _). apply not_true_is_false; intro Z; apply dns_okb_spec in Z as [Z _].
  apply prefixb_spec in Z as [u ->]. discriminate HL.
Qed.
Lemma s8_ok_noise : forall L, prefixb (bs "OK") L = true -> s8_noise L.
Proof. intros L H. apply prefixb_spec in H as [t ->]. unfold s8_noise. repeat apply Forall_cons; try apply Forall_nil; reflexivity. Qed.

(** First "OK": still waiting for the address. *)
Lemma s8_dns_ok : forall P N ps d tr d', dialogue (s8_step P) s8_noise N (reply (bs "OK") :: ps) d tr d' -> s8_going d -> wait d = Some (bs "OK") -> rst d = R8Cdnsgip ->
  exists d2 tr2, sent tr = sent tr2 /\ s8_alike d d2 /\ wait d2 = None /\ dialogue (s8_step P) s8_noise N ps d2 tr2 d'.
Proof.
  intros P N ps d tr d' Hd Hg Hw Hr0.
  destruct (dialogue_next (s8_step P) s8_noise N (reply (bs "OK")) ps d tr d' (fun x => s8_alike d x /\ wait x = wait d)) as (tr1 & e & tr2 & d1 & d2 & E & Hse & [K1 K2] & Hs & Hr & Hh & Hd2).
  - apply s8_look_keeps. intros y x H. exact H.
  - intros q Hp x e x' Hs Hr Hh K. unfold reply in Hp. apply some_eq in Hp. subst q. apply (s8_idle P N d x e x' _ Hs Hr Hh); [unfold s8_early; tauto|left; congruence| |congruence|exact K].
    intros L HL HnL. apply not_true_is_false in HnL. rewrite Hw. cbn [s8_wait_after]. rewrite HnL. split; [reflexivity|]. congruence.
  - exact Hd.
  - split; [apply s8_alike_refl; exact Hg|reflexivity].
  - pose proof K1 as (A1 & A2 & A3 & A4 & A5 & A6 & A7 & _). unfold reply in Hh.
    destruct (s8_still_line P N d1 e d2 _ Hs Hr Hh A1) as (B1 & B2 & B3 & L & HL & B4).
    + unfold s8_early. rewrite A3. tauto.
    + intros L HL. left. exact (s8_ok_noise L HL).
    + intros L HL. right. rewrite A3, Hr0. cbn [s8_rst_after]. rewrite (s8_noise_dns L (s8_ok_noise L HL)). discriminate.
    + exists d2, tr2. split; [rewrite E, sent_app, Hse, sent_cons, B1; reflexivity|]. split; [|split; [|exact Hd2]].
      * apply (s8_alike_noise d d1 d2 L K1 B2 (s8_ok_noise L HL)); [congruence|congruence|exact B4|exact B3].
      * destruct B4 as (_ & _ & _ & B4 & _). rewrite K2, Hw in B4. cbn [s8_wait_after] in B4. rewrite HL in B4. exact B4.
Qed.

(** First the address: "OK" may have come before, or is still awaited. *)
Lemma s8_dns_first : forall P N a ps d tr d', dialogue (s8_step P) s8_noise N (Some (resolved a) :: ps) d tr d' -> s8_going d -> wait d = Some (bs "OK") -> rst d = R8Cdnsgip ->
  exists d1 e d2 tr2, sent tr = put (e_ev e) ++ sent tr2 /\ s8_alike d d1 /\ s8_step P d1 e d2 /\ roomy N d1 e /\ hears (Some (resolved a)) e /\
    dialogue (s8_step P) s8_noise N ps d2 tr2 d' /\
    (wait d1 = None \/
     wait d1 = Some (bs "OK") /\ put (e_ev e) = [] /\ s8_going d2 /\ wait d2 = Some (bs "OK") /\ rst d2 = R8Ok /\ sst d2 = sst d /\ s8_params d2 = s8_params d /\ s8_address d2 = a /\
       fDisc (fl d2) = fDisc (fl d)).
Proof.
  intros P N a ps d tr d' Hd Hg Hw Hr0.
  destruct (dialogue_next (s8_step P) s8_noise N (Some (resolved a)) ps d tr d' (fun x => s8_alike d x /\ (wait x = None \/ wait x = Some (bs "OK")))) as (tr1 & e & tr2 & d1 & d2 & E & Hse & [K1 K2] & Hs & Hr & Hh & Hd2).
  - apply s8_look_keeps. intros y x H. exact H.
  - intros q Hp x e x' Hs Hr Hh [K1 K2]. injection Hp as <-. pose proof K1 as (A1 & A2 & A3 & A4 & A5 & A6 & A7 & _).
    assert (Hpx : s8_pending x) by (right; congruence). destruct Hh as [Hh|Hh].
    + destruct (s8_still_none P N x e x' Hs Hr Hh A1 Hpx) as (B1 & B2 & B3 & B4). split; [|exact B1]. split; [exact (s8_alike_same d x x' K1 B2 B3 B4)|].
      destruct B3 as (_ & _ & _ & B3 & _). rewrite B3. exact K2.
    + destruct (s8_still_line P N x e x' _ Hs Hr Hh A1) as (B1 & B2 & B3 & L & [HL HnL] & B4).
      * unfold s8_early. rewrite A3. tauto.
      * intros L [HL _]. left. exact HL.
      * intros L [HL _]. right. rewrite A3, Hr0. cbn [s8_rst_after]. rewrite (s8_noise_dns L HL). discriminate.
      * split; [|exact B1]. split.
        -- apply (s8_alike_noise d x x' L K1 B2 HL); [congruence|congruence|exact B4|exact B3].
        -- destruct B4 as (_ & _ & _ & B4 & _). rewrite B4. destruct K2 as [->| ->]; cbn [s8_wait_after]; [left; reflexivity|]. destruct (prefixb _ L); auto.
  - exact Hd.
  - split; [apply s8_alike_refl; exact Hg|right; exact Hw].
  - exists d1, e, d2, tr2. split; [rewrite E, sent_app, Hse, sent_cons; reflexivity|]. split; [exact K1|]. split; [exact Hs|]. split; [exact Hr|]. split; [exact Hh|]. split; [exact Hd2|].
    destruct K2 as [K2|K2]; [left; exact K2|right]. pose proof K1 as (A1 & A2 & A3 & A4 & A5 & A6 & A7 & _).
    assert (Hno : forall L, resolved a L -> prefixb (bs "OK") L = false) by (intros L [[HL _] _]; apply prefixb_spec in HL as [u ->]; reflexivity).
    destruct (s8_still_line P N d1 e d2 _ Hs Hr Hh A1) as (B1 & B2 & B3 & L & HL & B4).
    + unfold s8_early. rewrite A3. tauto.
    + intros L [HL _]. right. left. split; [congruence|exact HL].
    + intros L HL. left. rewrite K2. cbn [s8_wait_after]. rewrite (Hno L HL). discriminate.
    + destruct B4 as (S1 & S2 & S3 & S4 & S5 & S6 & S7 & S8). rewrite A3, Hr0 in S8, S5. destruct HL as [HL1 HL2]. pose proof (Hno L (conj HL1 HL2)) as Hn.
      rewrite (proj2 (dns_okb_spec L) HL1) in S8. cbn [s8_rst_after] in S5. rewrite (proj2 (dns_okb_spec L) HL1) in S5. cbn [andb] in S8. rewrite HL2 in S8. injection S8 as S8.
      rewrite K2 in S4. cbn [s8_wait_after] in S4. rewrite Hn in S4. destruct B3 as ((_ & _ & _ & J1 & J2 & J3) & _).
      split; [exact K2|]. split; [exact B1|]. split; [exact B2|]. splits; auto; try congruence.
      unfold s8_params in *. rewrite S6, J1, J2, J3. exact A4.
Qed.

(** An "OK" that is not awaited is skipped. *)
Lemma s8_skip : forall P N ps d tr d', dialogue (s8_step P) s8_noise N (reply (bs "OK") :: ps) d tr d' -> s8_going d -> wait d = Some (bs "0, CONNECT OK") -> rst d = R8Cipstart -> fDisc (fl d) = false ->
  exists d2 tr2, sent tr = sent tr2 /\ s8_alike d d2 /\ wait d2 = wait d /\ dialogue (s8_step P) s8_noise N ps d2 tr2 d'.
Proof.
  intros P N ps d tr d' Hd Hg Hw Hr0 Hdi.
  assert (Hnc : forall L, s8_noise L -> prefixb (bs "0, CONNECT OK") L = false).
  { intros L HL. apply s8_noise_inv in HL as (_ & _ & _ & HL & _). exact (no_prefix (bs "0, CONNECT") (bs " OK") L HL). }
  destruct (dialogue_next (s8_step P) s8_noise N (reply (bs "OK")) ps d tr d' (fun x => s8_alike d x /\ wait x = wait d)) as (tr1 & e & tr2 & d1 & d2 & E & Hse & [K1 K2] & Hs & Hr & Hh & Hd2).
  - apply s8_look_keeps. intros y x H. exact H.
  - intros q Hp x e x' Hs Hr Hh K. unfold reply in Hp. apply some_eq in Hp. subst q. apply (s8_idle P N d x e x' _ Hs Hr Hh); [unfold s8_early; tauto|left; congruence| |congruence|exact K].
    intros L HL HnL. rewrite Hw. cbn [s8_wait_after]. rewrite (Hnc L HL). split; [reflexivity|]. congruence.
  - exact Hd.
  - split; [apply s8_alike_refl; exact Hg|reflexivity].
  - pose proof K1 as (A1 & A2 & A3 & A4 & A5 & A6 & A7 & _). unfold reply in Hh.
    destruct (s8_idle P N d d1 e d2 (fun _ => False) Hs Hr) as [[C1 C2] C3]; [|unfold s8_early; tauto|left; congruence| |congruence|split; assumption|].
    + right. destruct Hh as (tk & L & H1 & H2). exists tk, L. split; [exact H1|]. split; [exact (s8_ok_noise L H2)|tauto].
    + intros L HL _. rewrite Hw. cbn [s8_wait_after]. rewrite (Hnc L HL). split; [reflexivity|]. congruence.
    + exists d2, tr2. split; [rewrite E, sent_app, Hse, sent_cons, C3; reflexivity|]. splits; auto.
Qed.

(** *** Opening *)

(** The commands that open a connection, in order; [a]: the address the modem
    resolves the host name to. *)
Definition s8_opening (apn host : cptr) (a : bytes) (type port : Z) : list bytes :=
  [bs "ATE0"; bs "AT+CIPRXGET=1"; bs "AT+CIPMUX=1"; bs "AT+CSTT=" ++ quoted (text apn); bs "AT+CIICR"; bs "AT+CIFSR";
   bs "AT+CDNSGIP=" ++ quoted (text host);
   bs "AT+CIPSTART=0," ++ quoted (if (type =? UDP)%Z then bs "UDP" else bs "TCP") ++ bs "," ++ quoted a ++ bs "," ++ dec port].
(** The replies; "OK" and the address come in either order. *)
Definition s8_open_replies (a : bytes) (ok_first : bool) : list (option (bytes -> Prop)) :=
  [None; None] ++ repeat (reply (bs "OK")) 5 ++ [Some s8_own_address] ++
  (if ok_first then [reply (bs "OK"); Some (resolved a)] else [Some (resolved a); reply (bs "OK")]) ++ [reply (bs "0, CONNECT OK")].

Theorem s8_opens : forall P N a ok_first d tr d', dialogue (s8_step P) s8_noise N (s8_open_replies a ok_first) d tr d' ->
  s8_going d -> sst d = S8NotConnected -> wait d = None -> rst d = R8Ok -> fConnect (fl d) = true -> fDisc (fl d) = false ->
  20 + length (text (host d)) <= N -> Forall (fun c => length c + 2 <= N) (s8_opening (apn (ext d)) (host d) a (typ d) (port d)) ->
  sent tr = commands (s8_opening (apn (ext d)) (host d) a (typ d) (port d)) /\
  ip_is_connected d' = true /\ fIp (fl d') = true /\ sst d' = S8Connected /\ wait d' = None /\ rst d' = R8Ok /\ s8_going d' /\ s8_params d' = s8_params d.
Proof.
  intros P N a ok_first d tr d' Hd Hg Hs Hw Hrs Hc Hdi HNh HF. assert (HN : 20 <= N) by lia. unfold s8_open_replies in Hd. cbn [repeat app] in Hd.
  destruct (s8_meet P N _ _ d tr d' _ Hd Hg (f8_none d Hw Hrs)) as (x0 & e0 & d0 & tr0 & E0 & (J1 & J2 & J3 & J4 & J5 & J6 & J7 & J8 & _) & J9 & J10 & Hs0 & Hr0 & Hh0 & Hd0).
  destruct (s8_begin P N x0 e0 d0 _ Hs0 Hr0 Hh0 J1 J10 HN ltac:(congruence) ltac:(congruence)) as (A1 & A2 & A3 & A4 & A5 & A6 & A7 & A8).
  rewrite A1 in E0. cbn [app] in E0. rewrite J4 in A6. rewrite J7, Hdi in A8. clear Hd Hg Hs Hw Hc J1 J2 J3 J4 J5 J6 J7 J8 J9 J10 Hs0 Hr0 Hh0 A1 A7 x0 e0.
  unfold s8_opening in HF. repeat match goal with H : Forall _ (_ :: _) |- _ => apply Forall_cons_iff in H as [? H] end.
  pose proof A6 as A6'. unfold s8_params in A6'. injection A6' as P1 P2 P3 P4.
  destruct (s8_talk P N None _ d0 tr0 d' (bs "ATE0") _ Hd0 A2 (f8_none d0 A4 A5) HN) as (d1 & tr1 & E1 & B1 & (B2 & B3 & B4) & B5 & _ & B6 & B7 & Hd1); try (rewrite A3; discriminate); [rewrite A3; reflexivity|assumption|].
  rewrite A3 in B2, B3, B4. cbn [s8_after fst snd] in B2, B3, B4. rewrite A6 in B5. rewrite A8 in B6. clear A2 A3 A4 A5 A6 P1 P2 P3 P4 A8 B7 Hd0.
  destruct (s8_talk P N (reply (bs "OK")) _ d1 tr1 d' (bs "AT+CIPRXGET=1") _ Hd1 B1 (f8_reply d1 _ B3 (or_introl B4) ltac:(left; reflexivity)) HN) as (d2 & tr2 & E2 & C1 & (C2 & C3 & C4) & C5 & _ & C6 & C7 & Hd2); try (rewrite B2; discriminate); [rewrite B2; reflexivity|assumption|].
  rewrite B2 in C2, C3, C4. cbn [s8_after fst snd] in C2, C3, C4. rewrite B5 in C5. rewrite B6 in C6. clear d0 B1 B2 B3 B4 B5 B6 C7 Hd1.
  destruct (s8_talk P N (reply (bs "OK")) _ d2 tr2 d' (bs "AT+CIPMUX=1") _ Hd2 C1 (f8_reply d2 _ C3 (or_introl C4) ltac:(left; reflexivity)) HN) as (d3 & tr3 & E3 & B1 & (B2 & B3 & B4) & B5 & _ & B6 & B7 & Hd3); try (rewrite C2; discriminate); [rewrite C2; reflexivity|assumption|].
  rewrite C2 in B2, B3, B4. cbn [s8_after fst snd] in B2, B3, B4. rewrite C5 in B5. rewrite C6 in B6. clear d1 C1 C2 C3 C4 C5 C6 B7 Hd2.
  pose proof B5 as B5'. unfold s8_params in B5'. injection B5' as P1 P2 P3 P4.
  destruct (s8_talk P N (reply (bs "OK")) _ d3 tr3 d' (bs "AT+CSTT=" ++ quoted (text (apn (ext d)))) _ Hd3 B1 (f8_reply d3 _ B3 (or_introl B4) ltac:(left; reflexivity)) HN) as (d4 & tr4 & E4 & C1 & (C2 & C3 & C4) & C5 & _ & C6 & C7 & Hd4); try (rewrite B2; discriminate); [rewrite B2, P1; reflexivity|assumption|].
  rewrite B2 in C2, C3, C4. cbn [s8_after fst snd] in C2, C3, C4. rewrite B5 in C5. rewrite B6 in C6. clear d2 B1 B2 B3 B4 B5 P1 P2 P3 P4 B6 C7 Hd3.
  destruct (s8_talk P N (reply (bs "OK")) _ d4 tr4 d' (bs "AT+CIICR") _ Hd4 C1 (f8_reply d4 _ C3 (or_introl C4) ltac:(left; reflexivity)) HN) as (d5 & tr5 & E5 & B1 & (B2 & B3 & B4) & B5 & _ & B6 & B7 & Hd5); try (rewrite C2; discriminate); [rewrite C2; reflexivity|assumption|].
  rewrite C2 in B2, B3, B4. cbn [s8_after fst snd] in B2, B3, B4. rewrite C5 in B5. rewrite C6 in B6. clear d3 C1 C2 C3 C4 C5 C6 B7 Hd4.
  destruct (s8_talk P N (reply (bs "OK")) _ d5 tr5 d' (bs "AT+CIFSR") _ Hd5 B1 (f8_reply d5 _ B3 (or_introl B4) ltac:(left; reflexivity)) HN) as (d6 & tr6 & E6 & C1 & (C2 & C3 & C4) & C5 & _ & C6 & C7 & Hd6); try (rewrite B2; discriminate); [rewrite B2; reflexivity|assumption|intros _; exact B6|].
  rewrite B2 in C2, C3, C4. cbn [s8_after fst snd] in C2, C3, C4. rewrite B5 in C5. rewrite B6 in C6. clear d4 B1 B2 B3 B4 B5 B6 C7 Hd5.
  pose proof C5 as C5'. unfold s8_params in C5'. injection C5' as P1 P2 P3 P4.
  destruct (s8_talk P N (Some s8_own_address) _ d6 tr6 d' (bs "AT+CDNSGIP=" ++ quoted (text (host d))) _ Hd6 C1 (f8_own d6 C3 C4) HN) as (d7 & tr7 & E7 & B1 & (B2 & B3 & B4) & B5 & _ & B6 & B7 & Hd7); try (rewrite C2; discriminate); [rewrite C2, P2; reflexivity|assumption|intros _; rewrite P2; lia|].
  rewrite C2 in B2, B3, B4. cbn [s8_after fst snd] in B2, B3, B4. rewrite C5 in B5. rewrite C6 in B6. clear d5 C1 C2 C3 C4 C5 P1 P2 P3 P4 C6 B7 Hd6.
  pose proof B5 as B5'. unfold s8_params in B5'. injection B5' as P1 P2 P3 P4.
  set (c8 := bs "AT+CIPSTART=0," ++ quoted (if (typ d =? UDP)%Z then bs "UDP" else bs "TCP") ++ bs "," ++ quoted a ++ bs "," ++ dec (port d)) in *.
  assert (Hc8 : ~ In NUL a -> s8_command S8SendCipstart (apn (ext d)) (host d) (a ++ [NUL]) (typ d) (port d) = Some c8).
  { intro Hna. cbn [s8_command]. rewrite (str_body_free a [] Hna). reflexivity. }
  (* from the address on *)
  assert (Hlast : exists d8 tr8, sent tr7 = (c8 ++ [CR; LF]) ++ sent tr8 /\ s8_going d8 /\ sst d8 = S8FinalizeConnect /\ wait d8 = Some (bs "0, CONNECT OK") /\ rst d8 = R8Cipstart /\
    fDisc (fl d8) = false /\ s8_params d8 = s8_params d /\ dialogue (s8_step P) s8_noise N [reply (bs "0, CONNECT OK")] d8 tr8 d').
  { destruct ok_first; cbn [app] in Hd7.
    - destruct (s8_dns_ok P N _ d7 tr7 d' Hd7 B1 B3 B4) as (d8 & tr8 & E8 & (A1 & A2 & A3 & A4 & A5 & A6 & A7 & _) & A9 & Hd8).
      assert (Hna : ~ In NUL a).
      { destruct (s8_meet P N _ _ d8 tr8 d' _ Hd8 A1 (f8_dns d8 a A9 ltac:(congruence))) as (_ & e & _ & _ & _ & _ & _ & _ & _ & _ & (tk & L & _ & [_ HL]) & _). exact (dns_ip_free _ _ (cbody_idem L) HL). }
      pose proof A4 as A4'. rewrite B5 in A4'. unfold s8_params in A4'. injection A4' as Q1 Q2 Q3 Q4.
      destruct (s8_talk P N (Some (resolved a)) _ d8 tr8 d' c8 a Hd8 A1 (f8_dns d8 a A9 ltac:(congruence)) HN) as (d9 & tr9 & E9 & C1 & (C2 & C3 & C4) & C5 & _ & C6 & C7 & Hd9); try (rewrite A2, B2; discriminate); [rewrite A2, B2, Q1, Q2, Q3, Q4; exact (Hc8 Hna)|assumption|].
      rewrite A2, B2 in C2, C3, C4. cbn [s8_after fst snd] in C2, C3, C4. exists d9, tr9. rewrite E8, E9. splits; auto; congruence.
    - destruct (s8_dns_first P N a _ d7 tr7 d' Hd7 B1 B3 B4) as (x8 & e8 & d8 & tr8 & E8 & K & Hs8 & Hr8 & Hh8 & Hd8 & Hcase).
      assert (Hna : ~ In NUL a) by (destruct Hh8 as (tk & L & _ & [_ HL]); exact (dns_ip_free _ _ (cbody_idem L) HL)).
      pose proof K as (A1 & A2 & A3 & A4 & A5 & A6 & A7 & _).
      pose proof A4 as A4'. rewrite B5 in A4'. unfold s8_params in A4'. injection A4' as Q1 Q2 Q3 Q4.
      destruct Hcase as [Hwn|(Hw8 & Hp8 & D1 & D2 & D3 & D4 & D5 & D6 & D7)].
      + destruct (s8_round P N _ x8 e8 d8 c8 a Hs8 Hr8 Hh8 A1 (f8_dns x8 a Hwn ltac:(congruence)) HN) as (C1 & C2 & (C3 & C4 & C5) & C6 & C7 & C8 & C9); try (rewrite A2, B2; discriminate);
          [rewrite A2, B2, Q1, Q2, Q3, Q4; exact (Hc8 Hna)|assumption|].
        rewrite A2, B2 in C3, C4, C5. cbn [s8_after fst snd] in C3, C4, C5.
        destruct (s8_skip P N _ d8 tr8 d' Hd8 C2 C4 C5 ltac:(congruence)) as (d9 & tr9 & E9 & (F1 & F2 & F3 & F4 & F5 & F6 & F7 & _) & F9 & Hd9).
        exists d9, tr9. rewrite E8, C1, E9. splits; auto; congruence.
      + pose proof D5 as D5'. rewrite B5 in D5'. unfold s8_params in D5'. injection D5' as R1 R2 R3 R4.
        destruct (s8_talk P N (reply (bs "OK")) _ d8 tr8 d' c8 _ Hd8 D1 (f8_reply d8 _ D2 (or_introl D3) ltac:(left; reflexivity)) HN) as (d9 & tr9 & E9 & C1 & (C2 & C3 & C4) & C5 & _ & C6 & C7 & Hd9); try (rewrite D4, B2; discriminate);
          [rewrite D4, B2, R1, R2, R3, R4, D6; exact (Hc8 Hna)|assumption|].
        rewrite D4, B2 in C2, C3, C4. cbn [s8_after fst snd] in C2, C3, C4. exists d9, tr9. rewrite E8, Hp8, E9. splits; auto; congruence. }
  destruct Hlast as (d8 & tr8 & E8 & C1 & C2 & C3 & C4 & C5 & C6 & Hd8).
  destruct (s8_meet P N _ _ d8 tr8 d' _ Hd8 C1 (f8_reply d8 _ C3 (or_intror (conj C4 C5)) ltac:(right; left; reflexivity))) as (x9 & e9 & d9 & tr9 & E9 & (J1 & J2 & J3 & J4 & _) & _ & J5 & Hs9 & Hr9 & Hh9 & Hd9).
  destruct (s8_finish P N _ x9 e9 d9 _ Hs9 Hr9 Hh9 J1 J5 HN ltac:(congruence)) as (D1 & D2 & D3 & D4 & D5 & D6 & _ & D7 & D8).
  destruct (dialogue_end (s8_step P) s8_noise N d9 tr9 d' (fun x => s8_going x /\ sst x = S8Connected /\ wait x = None /\ rst x = R8Ok /\ s8_params x = s8_params d /\ ip_is_connected x = true /\ fIp (fl x) = true)) as [E10 (F1 & F2 & F3 & F4 & F5 & F6 & F7)].
  - apply s8_look_keeps. intros y x Hx. exact Hx.
  - exact Hd9.
  - splits; auto. congruence.
  - split; [|splits; auto]. rewrite E0, E1, E2, E3, E4, E5, E6, E7, E8, E9, E10, D1. unfold s8_opening, commands. cbn [map concat]. fold c8. rewrite !app_nil_r. reflexivity.
Qed.

(** *** Closing *)

Definition s8_close_replies : list (option (bytes -> Prop)) := [None; None; reply (bs "0, CLOSE OK"); reply (bs "SHUT OK")].

Theorem s8_closes : forall P N d tr d', dialogue (s8_step P) s8_noise N s8_close_replies d tr d' -> 20 <= N ->
  s8_going d -> sst d = S8Connected -> wait d = None -> rst d = R8Ok -> fDisc (fl d) = true -> fIp (fl d) = true -> fData (fl d) = false ->
  avail (wbuf d) = 0 ->
  sent tr = commands [bs "AT+CIPCLOSE=0"; bs "AT+CIPSHUT"] /\
  ip_is_idle d' = true /\ fDisc (fl d') = false /\ sst d' = S8NotConnected /\ wait d' = None /\ rst d' = R8Ok /\ s8_going d' /\ s8_params d' = s8_params d.
Proof.
  intros P N d tr d' Hd HN Hg Hs Hw Hrs F1 F2 F3 F4. unfold s8_close_replies in Hd.
  destruct (s8_meet P N _ _ d tr d' _ Hd Hg (f8_none d Hw Hrs)) as (x0 & e0 & d0 & tr0 & E0 & (J1 & J2 & J3 & J4 & J5 & J6 & J7 & J8 & J9 & J10) & J11 & J12 & Hs0 & Hr0 & Hh0 & Hd0).
  destruct (s8_leave P N x0 e0 d0 _ Hs0 Hr0 Hh0 J1 J12 HN) as (A1 & A2 & A3 & A4 & A5 & A6 & A7 & A8 & A9); try congruence.
  rewrite A1 in E0. cbn [app] in E0. rewrite J4 in A6. clear Hd Hg Hs Hw F1 F2 F3 F4 J1 J2 J3 J4 J5 J6 J7 J8 J9 J10 J11 J12 Hs0 Hr0 Hh0 A1 A7 x0 e0.
  destruct (s8_talk P N None _ d0 tr0 d' (bs "AT+CIPCLOSE=0") _ Hd0 A2 (f8_none d0 A4 A5) HN) as (d1 & tr1 & E1 & B1 & (B2 & B3 & B4) & B5 & _ & B6 & B7 & Hd1); try (rewrite A3; discriminate);
    [rewrite A3; reflexivity|change (length (bs "AT+CIPCLOSE=0")) with 13; lia|intros _; exact A8|].
  rewrite A3 in B2, B3, B4. cbn [s8_after fst snd] in B2, B3, B4.
  destruct (s8_talk P N (reply (bs "0, CLOSE OK")) _ d1 tr1 d' (bs "AT+CIPSHUT") _ Hd1 B1 (f8_reply d1 _ B3 (or_introl B4) ltac:(right; right; left; reflexivity)) HN) as (d2 & tr2 & E2 & C1 & (C2 & C3 & C4) & C5 & _ & C6 & C7 & Hd2); try (rewrite B2; discriminate);
    [rewrite B2; reflexivity|change (length (bs "AT+CIPSHUT")) with 10; lia|].
  rewrite B2 in C2, C3, C4. cbn [s8_after fst snd] in C2, C3, C4.
  destruct (s8_meet P N _ _ d2 tr2 d' _ Hd2 C1 (f8_reply d2 _ C3 (or_introl C4) ltac:(right; right; right; left; reflexivity))) as (x3 & e3 & d3 & tr3 & E3 & (J1 & J2 & J3 & J4 & _ & _ & J7 & _) & _ & J5 & Hs3 & Hr3 & Hh3 & Hd3).
  destruct (s8_closed P N _ x3 e3 d3 _ Hs3 Hr3 Hh3 J1 J5 HN ltac:(congruence)) as (D1 & D2 & D3 & D4 & D5 & D6 & D7 & D8).
  destruct (dialogue_end (s8_step P) s8_noise N d3 tr3 d' (fun x => s8_going x /\ sst x = S8NotConnected /\ wait x = None /\ rst x = R8Ok /\ s8_params x = s8_params d /\ ip_is_idle x = true /\ fDisc (fl x) = false)) as [E4 (G1 & G2 & G3 & G4 & G5 & G6 & G7)].
  - apply s8_look_keeps. intros y x Hx. exact Hx.
  - exact Hd3.
  - splits; auto; congruence.
  - split; [|splits; auto]. rewrite E0, E1, E2, E3, E4, D1. unfold commands. cbn [map concat]. rewrite !app_nil_r. reflexivity.
Qed.
