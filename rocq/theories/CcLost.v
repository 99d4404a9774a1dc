(** The CC1352P7 driver: what can end the wait for received data. *)
From Coq Require Import String Ascii ZArith List Bool Arith Lia ZifyBool ZifyNat.
From Verif Require Import Base QueueSpec LineSpec SerialSpec Ring RingProofs LineRing LineRingProofs Serial SerialProofs
  SerStep TaskMacros CStr CStrProofs Dev DevProofs SimDev SimProofs SimSpec SimParse SimLog Sym DrvStep DrvCommon DrvRun DrvHist DrvActs DrvStuck DrvHand DrvFetch DrvDeaf
  Espressif Cc1352 CcSpec CcProofs CcCtl CcRun AtLine CcHist CcThms CcMore CcHand CcFetch CcDeaf.
From Verif Require EsLost.
Local Notation startsb := EsLost.startsb.
Local Notation startsb_ok := EsLost.startsb_ok.
Import ListNotations.
Local Open Scope nat_scope.
Ltac Zify.zify_post_hook ::= Z.div_mod_to_equations.
Local Notation dv := (dev ccsend ccreply ccx).
Local Notation ent := (@entry ccop).
Local Notation ilabC := (ilab sc_insend (fun _ : dv => whole_line) (fun _ : dv => partial_line) sc_clears).
Local Notation olabC P := (olab rc_ok (sc_says P) sc_tail sc_insend false).

(** The data was asked for and the header of the reply has not been read. *)
Definition sc_asked (d : dv) : Prop :=
  In (sst d) [SCWaitReceive; SCSerialError] /\ rst d = RCParseCiprecvdata /\ wait d = None /\
  fReset (fl d) = false /\ ip_is_connected d = true /\ fLock (fl d) = false.

(** The header of the reply, an error line or resetStates(). *)
Definition sc_release (e : ent) : Prop :=
  e_op e = OpResetStates \/
  exists tk L, In (aLine tk L) (e_acts e) /\
    (prefixb (bs "ERROR") L = true \/ prefixb (bs "SEND FAIL") L = true \/ prefixb (bs "+CIPRECVDATA") L = true).

Lemma sc_unsolicited_keeps : forall P (x x' : dv), sc_unsolicited P x = Ok x' ->
  sst x' = sst x /\ rst x' = rst x /\ wait x' = wait x /\ fReset (fl x') = fReset (fl x) /\
  ip_is_connected x' = ip_is_connected x /\ fLock (fl x') = fLock (fl x).
Proof.
  intros P x x' E. unfold sc_unsolicited in E. destruct (lmatch _ _ x) as [[]|]; cbn [bind] in E; [| |discriminate E].
  - destruct (strtol _ _); cbn [bind] in E; [|discriminate E]. apply ok_inj in E. subst x'. splits; auto.
  - destruct (lstarts _ x) as [[]|]; cbn [bind] in E; [| |discriminate E]; apply ok_inj in E; subst x'; splits; auto.
Qed.

Lemma sc_asked_line : forall P d ret d' L, sc_asked d -> CcHand.sc_is_error L = false -> prefixb (bs "+CIPRECVDATA") L = false ->
  sc_handles P d ret d' L -> ret = false /\ sc_asked d'.
Proof.
  intros P d ret d' L (S1 & S2 & S3 & S4 & S5 & S6) HE HC (r & y & Hlen & _ & HI & E).
  unfold sc_parse in E. assert (He : Cc1352.sc_is_error (line_at L r y d) = Ok false).
  { unfold CcHand.sc_is_error in HE. apply orb_false_iff in HE as [HE HE'].
    unfold Cc1352.sc_is_error. rewrite !(lstarts_at L r (line_at L r y d) eq_refl Hlen) by (reflexivity || (cbn; lia)). cbn [bind].
    rewrite HE, HE'. destruct (_ <=? _); reflexivity. }
  rewrite He in E. cbn [bind] in E. unfold sc_standard_reply in E. change (wait (line_at L r y d)) with (wait d) in E. rewrite S3 in E. cbn [bind] in E.
  unfold sc_special_reply in E. change (rst (line_at L r y d)) with (rst d) in E. rewrite S2 in E.
  unfold sc_parse_ciprecvdata in E. rewrite (lstarts_at L r (line_at L r y d) eq_refl Hlen) in E by (reflexivity || (cbn; lia)). rewrite HC in E. cbn [bind] in E.
  destruct (_ <=? _); [|injection E as <- <-; split; [reflexivity|unfold sc_asked; splits; assumption]].
  destruct (sc_unsolicited P _) as [x'|] eqn:Eu; [|discriminate E]. cbn [bind] in E. injection E as <- <-. split; [reflexivity|].
  destruct (sc_unsolicited_keeps _ _ _ Eu) as (A1 & A2 & A3 & A4 & A5 & A6).
  change (sst (line_at L r y d)) with (sst d) in A1. change (rst (line_at L r y d)) with (rst d) in A2. change (wait (line_at L r y d)) with (wait d) in A3.
  change (fl (line_at L r y d)) with (fl d) in A4, A6. change (ip_is_connected (line_at L r y d)) with (ip_is_connected d) in A5.
  unfold sc_asked. rewrite A1, A2, A3, A4, A5, A6. splits; assumption.
Qed.

Lemma sc_asked_step : forall P d e d', sc_step P d e d' -> sc_asked d -> ~ sc_release e -> sc_asked d' /\ put (e_ev e) = [].
Proof.
  intros P d e d' H HS HR.
  assert (HLk : fLock (fl d) = false) by apply HS. assert (HF : fReset (fl d) = false) by apply HS.
  destruct (sc_cases P d e d' H) as (d1 & Hd & HA & [(oo & Eo & _)|(Hn & Ea & Hr & Hc)]).
  - assert (Hput : put (e_ev e) = acts_put (e_acts e)).
    { destruct H as (_ & _ & _ & _ & _ & _ & Hio & _). rewrite Eo in Hio. apply Hio. }
    clear d1 Hd. destruct (sc_parts P d e d' oo H Eo HLk) as (d1 & Hd & Hr).
    cut (sc_asked d1 /\ acts_put (e_acts e) = []).
    { intros [C1 C2]. rewrite Hput, Hd. split; [exact C1|exact C2]. }
    clear Hput Hd H.
    assert (HE : forall tk L, In (aLine tk L) (e_acts e) -> CcHand.sc_is_error L = false /\ prefixb (bs "+CIPRECVDATA") L = false).
    { intros tk L Ha. split.
      - destruct (CcHand.sc_is_error L) eqn:E; [|reflexivity]. contradiction HR. right. exists tk, L. split; [exact Ha|]. apply orb_true_iff in E. destruct E; auto.
      - destruct (prefixb _ L) eqn:E; [|reflexivity]. contradiction HR. right. exists tk, L. auto. }
    assert (I : forall d1 a d2 r, In a (e_acts e) -> sc_asked d1 -> ilabC d1 r d2 a -> sc_in_ext P d1 r a d2 -> sc_asked d2 /\ act_put a = []).
    { intros x1 a x2 r Ha K Hi (_ & Hx). split; [|inversion Hi; reflexivity]. destruct a;
        try (destruct K as (K1 & K2 & K3 & K4 & K5 & K6); destruct Hx as (X1 & X2 & X3 & X4 & X5 & X6 & _ & X7 & _ & _ & _ & X8);
             unfold sc_asked, ip_is_connected in *; rewrite ?X1, ?X2, ?X3, ?X4, ?X5, ?X6, ?X7, ?X8; splits; assumption).
      destruct Hx as (_ & Hx). destruct (HE _ _ Ha) as [HE1 HE2].
      exact (proj2 (sc_asked_line P _ _ _ _ K HE1 HE2 Hx)). }
    assert (O : forall d1 b d2, sc_asked d1 -> olabC P d1 d2 b -> sc_out_ext P d1 b d2 -> sc_asked d2 /\ act_put b = []).
    { intros x1 b x2 K Ho (Hw & _ & Hx). assert (Ex : x2 = x1).
      { destruct K as (_ & K2 & K3 & _). unfold sc_output in Hx. rewrite K3, K2 in Hx. cbn [rc_ok negb] in Hx. apply ok_inj in Hx. congruence. }
      subst x2. split; [exact K|].
      destruct (olab_io (sc_shape P) _ _ _ Ho) as (ev & S1 & _ & S2 & _). rewrite <- S2. apply sstep_log in S1.
      rewrite <- (app_nil_r (slog (io x1))) in S1 at 1. apply app_inv_head in S1. subst ev. reflexivity. }
    assert (HSd : sc_asked (during (e_sch e) d)) by exact HS.
    destruct Hr as [(Ea & Ho & ->)|(R1 & l & dp & Hp & Hr)].
    + rewrite Ea. split; [|reflexivity]. destruct oo; [exact HSd|]. destruct HSd as (_ & HSd). unfold sc_asked. split; [cbn; tauto|exact HSd].
    + destruct Hp as [(_ & -> & ->)|(F & _)]; [|change (fReset (fl d) = true) in F; congruence].
      destruct Hr as (a & d2 & r & Hi & Hx & Hr). cbn [app] in Hr.
      assert (Hin : In a (e_acts e)) by (destruct Hr as [(-> & _)|(b & -> & _)]; left; reflexivity).
      destruct (I _ _ _ _ Hin HSd Hi Hx) as [J1 J2].
      destruct Hr as [(-> & -> & _)|(b & -> & Hol & Hox)].
      * split; [exact J1|]. unfold acts_put. cbn. rewrite J2. reflexivity.
      * destruct (O _ _ _ J1 Hol Hox) as [J3 J4]. split; [exact J3|]. unfold acts_put. cbn. rewrite J2, J4. reflexivity.
  - split.
    + pose proof (sc_lock_step P d e d' H HLk) as HL'.
      rewrite Hd in HL'. rewrite Hd. cut (sc_asked d1); [intro C; exact C|]. destruct HS as (K1 & K2 & K3 & K4 & K5 & K6).
      destruct Hr as [(_ & _ & _ & _ & _ & F1 & F2 & F3 & F4 & _ & _ & _ & _ & _ & _ & Hf)|[E _]];
        [|contradiction HR; left; exact E].
      destruct Hf as ((G1 & _) & _). unfold sc_asked, ip_is_connected in *. rewrite ?F1, ?F2, ?F3, ?F4, ?G1. splits; assumption.
    + destruct (raw_dec e) as [R|R].
      * destruct (raw_unlocked _ _ _ _ _ (sc_contract False P) d e d' H R HLk) as (_ & _ & E & _). exact E.
      * exact (proj2 (call_quiet _ _ _ _ d e d' H Ea R)).
Qed.

Theorem sc_asked_ever : forall P d tr d', sc_hist P d tr d' -> sc_asked d -> Forall (fun e => ~ sc_release e) tr ->
  sc_asked d' /\ sent tr = [].
Proof.
  intros P d tr d' H. induction H as [d|d e d1 tr d' Hs Hh IH]; intros HK HF; [split; [exact HK|reflexivity]|].
  inversion HF as [|? ? F1 F2]; subst. destruct (sc_asked_step P d e d1 Hs HK F1) as [K1 K2]. destruct (IH K1 F2) as [K3 K4].
  split; [exact K3|]. rewrite sent_cons, K2, K4. reflexivity.
Qed.

Theorem sc_ask_asked : forall P N n d tr1 d1 e d2, sc_on P d sc_c0 (rbuf d) d -> avail (wbuf d) = 0 -> ring_ok (rbuf d) -> avail (rbuf d) < rsize (rbuf d) ->
  dialogue (sc_step P) sc_hum N (sc_fetch_replies P n) d tr1 d1 -> sc_step P d1 e d2 -> roomy N d1 e -> hears None e -> e_sch e = [] ->
  modest n -> (0 < n)%Z -> 30 < rxsz (io d) -> 40 <= N -> sc_asked d2.
Proof.
  intros P N n d tr1 d1 e d2 H0 Hv Hok Hsp Hd1 Hs Hr Hh He Hn Hp Hrx HN. unfold sc_fetch_replies in *.
  destruct (sc_stage_notice P N _ d (rbuf d) n d tr1 d1 Hd1 (conj H0 eq_refl) ltac:(lia) Hv Hn) as (xa & ta & A1 & A2 & A3 & A4).
  destruct (sc_rest_at P N d _ _ xa ta d1 A4 A3) as (R1 & R2 & R3).
  destruct (sc_ask_now P N d n (rbuf d) d1 e d2 R3 Hp Hs Hr Hh He HN Hrx ltac:(unfold ring_space; lia)) as (_ & [Hat _] & _).
  on_inv Hat. destruct K as ((G1 & G2 & G3 & _) & _ & G4 & _). unfold sc_asked. rewrite Cs, Cr, Cw. splits; auto. cbn; tauto.
Qed.

(** The line a run() reads meanwhile consists of the bytes it takes, after those read before. *)
Lemma sc_asked_reads : forall P d e d' tk L, sc_step P d e d' -> sc_asked d -> In (aLine tk L) (e_acts e) ->
  exists t, taken (e_ev e) = tk ++ t /\ L = pending d ++ tk.
Proof.
  intros P d e d' tk L H HS Hin. assert (HLk : fLock (fl d) = false) by apply HS. assert (HF : fReset (fl d) = false) by apply HS.
  destruct (sc_cases P d e d' H) as (d1 & Hd & HA & [(oo & Eo & _)|(Hn & Ea & Hr & Hc)]); [|rewrite Ea in Hin; destruct Hin].
  assert (Hput : taken (e_ev e) = acts_taken (e_acts e)).
  { destruct H as (_ & _ & _ & _ & _ & _ & Hio & _). rewrite Eo in Hio. apply Hio. }
  clear d1 Hd. destruct (sc_parts P d e d' oo H Eo HLk) as (d1 & Hd & Hr).
  destruct Hr as [(Ea & Ho & ->)|(R1 & l & dp & Hp & Hr)]; [rewrite Ea in Hin; destruct Hin|].
  destruct Hp as [(_ & -> & ->)|(F & _)]; [|change (fReset (fl d) = true) in F; congruence].
  destruct Hr as (a & d2 & r & Hi & Hx & Hr). cbn [app] in Hr.
  destruct Hr as [(E & _ & _)|(b & E & Hol & _)]; rewrite E in Hin, Hput; unfold acts_taken in Hput; cbn [map concat] in Hput.
  - destruct Hin as [->|[]]. inversion Hi; subst. eexists. split; [exact Hput|reflexivity].
  - destruct Hin as [->|[->|[]]]; [|inversion Hol]. inversion Hi; subst. eexists. split; [exact Hput|reflexivity].
Qed.

(** Computes that a script contains none of these events. *)
Fixpoint unreleasedb (P : plat) (h : list (dop ccop * list (list isr))) (d : dv) : bool :=
  match h with
  | [] => true
  | (o, sch) :: h =>
      match d_step (sc_driver P) o sch d with
      | UB _ => false
      | Ok (_, ev, d1) => match o with OpResetStates => false | _ => true end &&
          negb (startsb (bs "ERROR") (pending d) (taken ev)) && negb (startsb (bs "SEND FAIL") (pending d) (taken ev)) &&
          negb (startsb (bs "+CIPRECVDATA") (pending d) (taken ev)) && unreleasedb P h d1
      end
  end.
Lemma unreleasedb_ok : forall P d tr d', sc_hist P d tr d' -> sc_asked d -> unreleasedb P (map (fun e => (e_op e, e_sch e)) tr) d = true ->
  Forall (fun e => ~ sc_release e) tr.
Proof.
  intros P d tr d' H. induction H as [d|d e d1 tr d' Hs Hh IH]; intros HK HF; [constructor|].
  cbn [map unreleasedb] in HF. pose proof Hs as (_ & _ & _ & E & _). rewrite E in HF. rewrite !andb_true_iff, !negb_true_iff in HF.
  destruct HF as ((((F1 & F2) & F3) & F4) & F5).
  assert (Hq : ~ sc_release e).
  { intros [X|(tk & L & Hin & X)]; [rewrite X in F1; discriminate F1|].
    destruct (sc_asked_reads P d e d1 tk L Hs HK Hin) as (t & Et & ->).
    rewrite Et in F2, F3, F4. apply startsb_ok in F2, F3, F4. destruct X as [X|[X|X]]; congruence. }
  constructor; [exact Hq|]. apply IH; [|exact F5]. exact (proj1 (sc_asked_step P d e d1 Hs HK Hq)).
Qed.
