(** What single reply lines and commands of the SIM7x00 driver do. *)
From Coq Require Import String Ascii ZArith List Bool Arith Lia ZifyBool ZifyNat.
From Verif Require Import Base QueueSpec LineSpec SerialSpec Ring RingProofs LineRing LineRingProofs Serial SerialProofs
  SerStep TaskMacros CStr CStrProofs Dev DevProofs SimDev SimProofs SimSpec SimParse SimLog Sym DrvStep DrvCommon DrvRun DrvHist
  Sim7x00 Sim7Spec Sim7Proofs Sim7Ctl Sim7CtlIn Sim7Run Sim7Hist Sim7Thms Sim7More.
Import ListNotations.
Local Open Scope nat_scope.
Ltac Zify.zify_post_hook ::= Z.div_mod_to_equations.
Local Notation dv := (dev s7send s7reply simx).
Local Notation ent := (@entry simop).
Local Notation ilab7 := (ilab s7_insend (fun _ : dv => whole_line) (fun _ : dv => partial_line) s7_clears).
Local Notation olab7 := (olab r7_ok s7_says s7_tail s7_insend true).

(** The three kinds of run(). *)
Lemma s7_run_cases : forall P d e d' oo, s7_step P d e d' -> e_op e = OpRun oo ->
  exists d1, d' = set_io (io d') d1 /\
  ((e_acts e = [] /\ (isopen d = false \/ fLock (fl d) = true) /\
    (d1 = during (e_sch e) d \/ d1 = set_isopen true (during (e_sch e) d) \/ d1 = set_sst S7SerialError (during (e_sch e) d))) \/
   (exists q, e_acts e = [aReset q] /\ fReset (fl d) = true /\ resets (s7_shape P) (during (e_sch e) d) q d1 /\ s7_rctl (during (e_sch e) d) d1) \/
   (isopen d = true /\ fLock (fl d) = false /\ fReset (fl d) = false /\
    exists a d2 r, ilab7 (during (e_sch e) d) r d2 a /\ s7_in_ext P (during (e_sch e) d) r a d2 /\
      ((e_acts e = [a] /\ d1 = d2) \/ (exists b, e_acts e = [a; b] /\ olab7 d2 d1 b /\ s7_out_ext d2 b d1)))).
Proof.
  intros P d e d' oo H Eo. destruct (s7_cases P d e d' H) as (d1 & Hd & HA & [(oo' & Eo' & Hr)|(Hn & _)]); [|exfalso; exact (Hn _ Eo)].
  exists d1. split; [exact Hd|]. rewrite Eo in Eo'. inversion Eo'; subst oo'. clear Hd H Eo Eo'.
  inversion Hr as [Ho Eoo E1 E2|Ho Eoo E1 E2|Ho El E1 E2|l x1 (R1 & R2 & R3) Hf Hp E1 E2|l x1 a x2 (R1 & R2 & R3) Hp Hi Hx E1 E2|l x1 a x2 b x3 (R1 & R2 & R3) Hp Hi Hx Hol Hox E1 E2]; subst; cbn [s7_shape sh_lock sh_goon sh_iext sh_oext] in *.
  - left. splits; auto.
  - left. splits; auto.
  - left. splits; auto.
  - right. left. destruct Hp as [(F & _)|(F & q & E & Hq & Hx)]; [congruence|]. exists q. splits; auto.
  - right. right. destruct Hp as [(F & -> & ->)|(F & q & -> & _)]; [|discriminate (R3 eq_refl)].
    split; [exact R1|]. split; [exact (R2 eq_refl)|]. split; [exact F|]. exists a, d1, true. splits; auto.
  - right. right. destruct Hp as [(F & -> & ->)|(F & q & -> & _)]; [|discriminate (R3 eq_refl)].
    split; [exact R1|]. split; [exact (R2 eq_refl)|]. split; [exact F|]. exists a, x2, false. splits; auto. right. exists b. splits; auto.
Qed.

(** ** What a line changes *)

(** A line with an error instead of the awaited reply. *)
Definition s7_refused (L : bytes) (d : dv) : bool :=
  match wait d with Some w => negb (prefixb w L) && prefixb (bs "ERROR") L | None => false end.

(** Signal strength, address and identification after the line [L]. *)
Definition s7_effect (P : plat) (L : bytes) (d d' : dv) : Prop :=
  if s7_refused L d then rssi d' = rssi d /\ ext d' = ext d /\ rst d' = rst d
  else match rst d with
  | R7Csq => ext d' = ext d /\
      if prefixb (bs "+CSQ: ") L then rssi d' = csq_dbm (number P (skipn 6 L)) /\ rst d' = R7Ok
      else rssi d' = rssi d /\ rst d' = R7Csq
  | R7Cdnsgip => rssi d' = rssi d /\
      ((dns_ok L /\ rst d' = R7Ok /\ exists a, dns_ip (cbody L) = Some a /\ length a <= 15 /\ ~ In NUL a /\
         ext d' = set_ip (a ++ NUL :: skipn (S (length a)) (ip (ext d))) (ext d)) \/
       (~ dns_ok L /\ rst d' = R7Cdnsgip /\ ext d' = ext d))
  | R7RequestID => rssi d' = rssi d /\
      ((rst d' = R7Ok /\ exists s r, id_ok L (idbuf (ext d)) s /\
         ext d' = set_idbuf (firstn 23 (upto CR (s ++ NUL :: r)) ++
           NUL :: skipn (S (length (firstn 23 (upto CR (s ++ NUL :: r))))) (idbuf (ext d))) (ext d)) \/
       ((forall s, ~ id_ok L (idbuf (ext d)) s) /\ rst d' = R7RequestID /\ ext d' = ext d))
  | _ => rssi d' = rssi d /\ ext d' = ext d
  end.

(** The state after the line [L]. *)
Definition s7_moved (L : bytes) (d d' : dv) : Prop :=
  sst d' = sst d \/ (rst d = R7Netopen /\ prefixb (bs "+NETOPEN: 1") L = true /\ sst d' = S7SendNetopen) \/
  (rst d = R7Ciprxget2 /\ prefixb (bs "+CIPRXGET: 2,0,") L = true /\ sst d' = S7Receiving).

Lemma s7_special_line : forall P L r d ret d', lbuf d = L ++ NUL :: r -> length (L ++ NUL :: r) = 61 -> s7_inv d -> s7_refused L d = false ->
  s7_special_reply P d = Ok (ret, d') -> s7_effect P L d d' /\ lbuf d' = lbuf d \/ s7_effect P L d d' /\ ret = false /\ rst d = R7Cdnsgip /\ prefixb (bs "+CDNSGIP: 1") L = true /\ parsed (lbuf d') /\
    prefixb (bs "+CDNSGIP: 1") (lbuf d') = true.
Proof.
  intros P L r d ret d' HL Hlen HI HR H. destruct HI as (Hd & Hip & Hid & _).
  unfold s7_effect. rewrite HR. unfold s7_special_reply in H. destruct (rst d) eqn:Er.
  - injection H as <- <-. auto.
  - rewrite (csq_line P L r d HL Hlen) in H. destruct (prefixb (bs "+CSQ: ") L); cbn [bind] in H; injection H as <- <-; auto 6.
  - left. destruct (id_line L r d HL Hlen Hid) as [(s & E1 & E2 & E3)|(E1 & E3)]; rewrite E3 in H; cbn [bind] in H; injection H as <- <-.
    + split; [|reflexivity]. split; [reflexivity|]. left. split; [reflexivity|]. exists s, r. split; [split; assumption|reflexivity].
    + split; [|reflexivity]. split; [reflexivity|]. right. split; [|split; [exact Er|reflexivity]]. intros s [K1 K2]. destruct (E1 s K1) as [K3 K4]. auto.
  - injection H as <- <-. auto.
  - destruct (wait d).
    + rewrite (lstarts_line L r d HL Hlen) in H by (reflexivity || (cbn; lia)). cbn [bind] in H.
      destruct (prefixb (bs "+NETOPEN: 1") L); injection H as <- <-; auto.
    + injection H as <- <-. auto.
  - pose proof (dns_line L r d HL Hlen Hip) as Hw. destruct (sim_parse_dns d) as [[ok d1]|]; [|discriminate]. cbn [bind wp] in *.
    injection H as <- <-. destruct Hw as [(E1 & E2 & E3)|[(E1 & E3)|(E1 & E2 & a & lb & E4 & E5 & E6 & E7 & E8 & E3)]]; apply pair_eq in E3 as [-> ->].
    + left. split; [|reflexivity]. split; [reflexivity|]. right. split; [intros [_ K]; contradiction|]. split; [exact Er|reflexivity].
    + left. destruct (prefixb (bs "+CDNSGIP: 0") L); (split; [|reflexivity]); (split; [reflexivity|]; right; split; [intros [K _]; congruence|]; split; [exact Er|reflexivity]).
    + right. split; [|splits; try assumption; try reflexivity; apply E7]. split; [reflexivity|]. left. split; [split; assumption|]. split; [reflexivity|].
      exists a. splits; auto.
  - destruct (wait d).
    + rewrite (lstarts_line L r d HL Hlen) in H by (reflexivity || (cbn; lia)). cbn [bind] in H.
      destruct (prefixb (bs "+CIPOPEN: 0,") L); injection H as <- <-; auto.
    + injection H as <- <-. auto.
  - rewrite (ciprxget4_line P L r d HL Hlen) in H. destruct (prefixb (bs "+CIPRXGET: 4,0,") L); cbn [bind] in H; injection H as <- <-; auto.
  - rewrite (ciprxget2_line P L r d HL Hlen) in H. destruct (prefixb (bs "+CIPRXGET: 2,0,") L); cbn [bind] in H; injection H as <- <-; auto.
Qed.

Lemma s7_special_moved : forall P L r d ret d', lbuf d = L ++ NUL :: r -> length (L ++ NUL :: r) = 61 -> s7_inv d ->
  s7_special_reply P d = Ok (ret, d') -> s7_moved L d d'.
Proof.
  intros P L r d ret d' HL Hlen HI H. destruct HI as (Hd & Hip & Hid & _).
  unfold s7_moved. unfold s7_special_reply in H. destruct (rst d) eqn:Er.
  - injection H as <- <-. auto.
  - rewrite (csq_line P L r d HL Hlen) in H. destruct (prefixb (bs "+CSQ: ") L); cbn [bind] in H; injection H as <- <-; auto 6.
  - left. destruct (id_line L r d HL Hlen Hid) as [(s & E1 & E2 & E3)|(E1 & E3)]; rewrite E3 in H; cbn [bind] in H; injection H as <- <-; reflexivity.
  - injection H as <- <-. auto.
  - destruct (wait d).
    + rewrite (lstarts_line L r d HL Hlen) in H by (reflexivity || (cbn; lia)). cbn [bind] in H.
      destruct (prefixb (bs "+NETOPEN: 1") L); injection H as <- <-; auto 6.
    + injection H as <- <-. auto.
  - pose proof (dns_line L r d HL Hlen Hip) as Hw. destruct (sim_parse_dns d) as [[ok d1]|]; [|discriminate]. cbn [bind wp] in *.
    injection H as <- <-. left. destruct Hw as [(E1 & E2 & E3)|[(E1 & E3)|(E1 & E2 & a & lb & E4 & E5 & E6 & E7 & E8 & E3)]]; apply pair_eq in E3 as [-> ->];
      try destruct (prefixb (bs "+CDNSGIP: 0") L); reflexivity.
  - destruct (wait d).
    + rewrite (lstarts_line L r d HL Hlen) in H by (reflexivity || (cbn; lia)). cbn [bind] in H.
      destruct (prefixb (bs "+CIPOPEN: 0,") L); injection H as <- <-; auto.
    + injection H as <- <-. auto.
  - rewrite (ciprxget4_line P L r d HL Hlen) in H. destruct (prefixb (bs "+CIPRXGET: 4,0,") L); cbn [bind] in H; injection H as <- <-; auto.
  - rewrite (ciprxget2_line P L r d HL Hlen) in H. destruct (prefixb (bs "+CIPRXGET: 2,0,") L); cbn [bind] in H; injection H as <- <-; auto 6.
Qed.

Theorem s7_line_both : forall P d ret d' L, s7_handles P d ret d' L -> s7_effect P L d d' /\ s7_moved L d d'.
Proof.
  intros P d ret d' L (r & y & Hlen & _ & HI & H).
  set (x := line_at L r y d) in *. assert (HL : lbuf x = L ++ NUL :: r) by reflexivity.
  cut (s7_effect P L x d' /\ s7_moved L x d'); [intro C; exact C|]. clearbody x. clear y d. rename x into d.
  pose proof HI as ((_ & _ & _ & _ & _ & _ & _ & _ & _ & Hwt & _) & Hip & Hid & _).
  assert (Hc : forall d1 d2 : dv, (lbuf d1 = lbuf d \/ parsed (lbuf d1)) ->
    (if s7_rank S7Connected <=? s7_rank (sst d1) then let* d := sim_check_connection (bs "+IPCLOSE: 0,") d1 in Ok (false, d) else Ok (false, d1))%res = Ok (ret, d2) ->
    rssi d2 = rssi d1 /\ ext d2 = ext d1 /\ rst d2 = rst d1 /\ sst d2 = sst d1).
  { intros d1 d2 Hd1 E. destruct (_ <=? _); [|injection E as <- <-; auto].
    assert (Hl1 : length (lbuf d1) = 61) by (destruct Hd1 as [->|[K _]]; [rewrite HL; exact Hlen|exact K]).
    unfold sim_check_connection in E. rewrite !lstarts_eq in E by (rewrite ?Hl1; cbn; lia || lfree). cbn [bind] in E.
    destruct (prefixb (bs "+CIPRXGET: 1,0") (lbuf d1)); [cbn [bind] in E; injection E as <- <-; auto|].
    destruct (prefixb (bs "+IPCLOSE: 0,") (lbuf d1)); cbn [bind] in E; injection E as <- <-; auto. }
  unfold s7_parse in H. assert (Hs : exists ret1 d1, s7_standard_reply d = Ok (ret1, d1) /\ lbuf d1 = lbuf d /\ rssi d1 = rssi d /\ ext d1 = ext d /\ rst d1 = rst d /\ sst d1 = sst d /\
     ret1 = s7_refused L d /\ (ret1 = false -> s7_refused L d1 = false /\ s7_inv d1)).
  { unfold s7_standard_reply, s7_refused. destruct (wait d) as [w|] eqn:Ew.
    - destruct Hwt as [Hw1 Hw2]. rewrite (lmatch_line L r d HL Hlen) by first [apply nulfree_of; assumption | lia]. cbn [bind].
      destruct (prefixb w L) eqn:Em; cbn [negb andb].
      + exists false, (set_wait None d). splits; auto. intros _. split; [reflexivity|]. clear - HI. open_inv d HI. inv_leaf.
      + rewrite (lstarts_line L r d HL Hlen) by (reflexivity || (cbn; lia)). cbn [bind]. destruct (prefixb (bs "ERROR") L) eqn:Ee.
        * eexists _, _. split; [reflexivity|]. splits; auto. discriminate.
        * exists false, d. splits; auto. intros _. rewrite ?Ew, ?Em, ?Ee. auto.
    - exists false, d. splits; auto. intros _. rewrite ?Ew. auto. }
  destruct Hs as (ret1 & d1 & Es & A1 & A2 & A3 & A4 & A9 & A5 & A6). rewrite Es in H. cbn [bind] in H. destruct ret1.
  - injection H as <- <-. unfold s7_effect, s7_moved. rewrite <- A5. auto.
  - destruct (A6 eq_refl) as [A7 A8]. destruct (s7_special_reply P d1) as [[ret2 d2]|] eqn:E2; [|discriminate]. cbn [bind] in H.
    pose proof (s7_special_line P L r d1 ret2 d2 ltac:(rewrite A1; exact HL) Hlen A8 A7 E2) as HE.
    pose proof (s7_special_moved P L r d1 ret2 d2 ltac:(rewrite A1; exact HL) Hlen A8 E2) as HM.
    assert (HE' : s7_effect P L d d2 /\ (lbuf d2 = lbuf d \/ parsed (lbuf d2))).
    { unfold s7_effect in *. rewrite A7 in HE. rewrite <- A5. rewrite A4, A2, A3 in HE. rewrite A1 in HE.
      destruct HE as [[HE HE2]|(HE & _ & _ & _ & HE2 & _)]; split; auto. }
    destruct HE' as [HE1 HE2].
    assert (HF : rssi d' = rssi d2 /\ ext d' = ext d2 /\ rst d' = rst d2 /\ sst d' = sst d2).
    { destruct ret2; [injection H as <- <-; auto|]. exact (Hc d2 d' HE2 H). }
    destruct HF as (F1 & F2 & F3 & F4). split.
    + unfold s7_effect in *. rewrite <- A5 in *. destruct (rst d); rewrite ?F1, ?F2, ?F3; exact HE1.
    + unfold s7_moved in *. rewrite F4. rewrite A9, A4 in HM. exact HM.
Qed.

Lemma s7_line_effect : forall P d ret d' L, s7_handles P d ret d' L -> s7_effect P L d d'.
Proof. intros P d ret d' L H. exact (proj1 (s7_line_both P d ret d' L H)). Qed.
Lemma s7_line_moved : forall P d ret d' L, s7_handles P d ret d' L -> s7_moved L d d'.
Proof. intros P d ret d' L H. exact (proj2 (s7_line_both P d ret d' L H)). Qed.
