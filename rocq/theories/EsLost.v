(** The Espressif driver: what can end the wait for received data. *)
From Coq Require Import String Ascii ZArith List Bool Arith Lia ZifyBool ZifyNat.
From Verif Require Import Base QueueSpec LineSpec SerialSpec Ring RingProofs LineRing LineRingProofs Serial SerialProofs
  SerStep TaskMacros CStr CStrProofs Dev DevProofs SimDev SimProofs SimSpec SimParse SimLog Sym DrvStep DrvCommon DrvRun DrvHist DrvActs DrvStuck DrvHand DrvFetch DrvDeaf
  Espressif EsSpec EsFill EsProofs EsCtl EsRun EsHist EsThms EsMore EsHand EsFetch EsDeaf.
Import ListNotations.
Local Open Scope nat_scope.
Ltac Zify.zify_post_hook ::= Z.div_mod_to_equations.
Local Notation dv := (dev essend esreply espx).
Local Notation ent := (@entry esop).
Local Notation ilabE := (ilab se_insend se_whole (fun _ : dv => partial_line) se_clears).
Local Notation olabE P := (olab re_ok (se_says P) se_tail se_insend false).

(** The data was asked for and the header of the reply has not been read. *)
Definition se_asked (d : dv) : Prop :=
  In (sst d) [SEWaitReceive; SEFinalizeDisconnect; SESerialError] /\ rst d = REWaitCiprecvdata /\ wait d = None /\
  fReset (fl d) = false /\ ip_is_connected d = true /\ fLock (fl d) = false.

(** The header of the reply, an error line or resetStates(). *)
Definition se_release (e : ent) : Prop :=
  e_op e = OpResetStates \/
  exists tk L, In (aLine tk L) (e_acts e) /\
    (prefixb (bs "ERROR") L = true \/ prefixb (bs "FAIL") L = true \/ prefixb (bs "+CIPRECVDATA") L = true).

Lemma se_header_prefix : forall r L, se_header r L = true -> prefixb (bs "+CIPRECVDATA") L = true.
Proof.
  intros r L H. unfold se_header in H. apply andb_true_iff in H as [_ H]. apply orb_true_iff in H as [H|H]; apply andb_true_iff in H as [_ H];
    apply prefixb_spec in H as [t ->]; reflexivity.
Qed.

Lemma se_unsolicited_keeps : forall P (x x' : dv), se_unsolicited P x = Ok x' ->
  (sst x' = sst x \/ sst x' = SEFinalizeDisconnect) /\ rst x' = rst x /\ (wait x' = wait x \/ wait x' = None) /\ fReset (fl x') = fReset (fl x) /\
  ip_is_connected x' = ip_is_connected x /\ fLock (fl x') = fLock (fl x).
Proof.
  intros P x x' E. unfold se_unsolicited in E. destruct (lmatch _ _ x) as [[]|]; cbn [bind] in E; [| |discriminate E].
  - destruct (strtol _ _); cbn [bind] in E; [|discriminate E]. apply ok_inj in E. subst x'. destruct (_ =? _)%Z; splits; auto.
  - destruct (lstarts _ x) as [[]|]; cbn [bind] in E; [| |discriminate E]; [apply ok_inj in E; subst x'; splits; auto|].
    destruct (lstarts _ x) as [[]|]; cbn [bind] in E; [| |discriminate E]; apply ok_inj in E; subst x'; splits; auto.
Qed.

Lemma se_asked_line : forall P d ret d' L, se_asked d -> se_whole d L -> se_is_error L = false -> prefixb (bs "+CIPRECVDATA") L = false ->
  se_handles P d ret d' L -> ret = false /\ se_asked d'.
Proof.
  intros P d ret d' L (S1 & S2 & S3 & S4 & S5 & S6) Hw HE HC (r & y & Hlen & _ & HI & E).
  assert (Et : se_took L d = d).
  { destruct (se_took_eq L d) as [E1|[(_ & E1 & _)|E1]]; [exact E1| |].
    - apply se_header_prefix in E1. congruence.
    - destruct Hw as (? & ? & _ & _ & _ & _ & X). congruence. }
  rewrite Et in *.
  pose proof (se_whole_parsed _ _ _ _ r Hw Hlen) as Hp.
  rewrite se_parse_eq in E by exact (proj1 Hp). change (lbuf (line_at L r y d)) with (L ++ NUL :: r) in E.
  assert (He : se_is_error (L ++ NUL :: r) = false).
  { unfold se_is_error in *. rewrite !prefixb_line by lfree. exact HE. }
  assert (Hc : se_is_connected (sst d) = false).
  { cbn [In] in S1. destruct S1 as [<-|[<-|[<-|[]]]]; reflexivity. }
  rewrite He in E. unfold se_noerr in E. change (sst (line_at L r y d)) with (sst d) in E. rewrite Hc in E. cbn [andb] in E.
  unfold se_standard_reply in E. change (wait (line_at L r y d)) with (wait d) in E. rewrite S3 in E. cbn [bind] in E.
  unfold se_special_reply in E. change (rst (line_at L r y d)) with (rst d) in E. rewrite S2 in E. cbn [bind] in E.
  change (sst (line_at L r y d)) with (sst d) in E.
  destruct (_ <=? _); [|injection E as <- <-; split; [reflexivity|unfold se_asked; splits; assumption]].
  destruct (se_unsolicited P _) as [x'|] eqn:Eu; [|discriminate E]. cbn [bind] in E. injection E as <- <-. split; [reflexivity|].
  destruct (se_unsolicited_keeps _ _ _ Eu) as (A1 & A2 & A3 & A4 & A5 & A6).
  change (sst (line_at L r y d)) with (sst d) in A1. change (rst (line_at L r y d)) with (rst d) in A2. change (wait (line_at L r y d)) with (wait d) in A3.
  change (fl (line_at L r y d)) with (fl d) in A4, A6. change (ip_is_connected (line_at L r y d)) with (ip_is_connected d) in A5.
  unfold se_asked. rewrite A2, A4, A5, A6. splits; try assumption.
  - destruct A1 as [->| ->]; [exact S1|cbn; tauto].
  - destruct A3 as [->| ->]; [exact S3|reflexivity].
Qed.

Lemma se_asked_step : forall P d e d', se_step P d e d' -> se_asked d -> ~ se_release e -> se_asked d' /\ put (e_ev e) = [].
Proof.
  intros P d e d' H HS HR.
  assert (HLk : fLock (fl d) = false) by apply HS. assert (HF : fReset (fl d) = false) by apply HS.
  destruct (se_cases P d e d' H) as (d1 & Hd & HA & [(oo & Eo & _)|(Hn & Ea & Hr & Hc)]).
  - assert (Hput : put (e_ev e) = acts_put (e_acts e)).
    { destruct H as (_ & _ & _ & _ & _ & _ & Hio & _). rewrite Eo in Hio. apply Hio. }
    clear d1 Hd. destruct (se_parts P d e d' oo H Eo HLk) as (d1 & Hd & Hr).
    cut (se_asked d1 /\ acts_put (e_acts e) = []).
    { intros [C1 C2]. rewrite Hput, Hd. split; [exact C1|exact C2]. }
    clear Hput Hd H.
    assert (HE : forall tk L, In (aLine tk L) (e_acts e) -> se_is_error L = false /\ prefixb (bs "+CIPRECVDATA") L = false).
    { intros tk L Ha. split.
      - destruct (se_is_error L) eqn:E; [|reflexivity]. contradiction HR. right. exists tk, L. split; [exact Ha|]. apply se_error_dec in E. destruct E; auto.
      - destruct (prefixb _ L) eqn:E; [|reflexivity]. contradiction HR. right. exists tk, L. auto. }
    assert (I : forall d1 a d2 r, In a (e_acts e) -> se_asked d1 -> ilabE d1 r d2 a -> se_in_ext P d1 r a d2 -> se_asked d2 /\ act_put a = []).
    { intros x1 a x2 r Ha K Hi (_ & _ & Hx). split; [|inversion Hi; reflexivity]. destruct a;
        try (destruct K as (K1 & K2 & K3 & K4 & K5 & K6); destruct Hx as (X1 & X2 & X3 & X4 & X5 & X6 & _ & X7 & _ & _ & _ & X8);
             unfold se_asked, ip_is_connected in *; rewrite ?X1, ?X2, ?X3, ?X4, ?X5, ?X6, ?X7, ?X8; splits; assumption).
      destruct Hx as (_ & Hx). assert (Hw : se_whole x1 L) by (inversion Hi; assumption). destruct (HE _ _ Ha) as [HE1 HE2].
      exact (proj2 (se_asked_line P _ _ _ _ K Hw HE1 HE2 Hx)). }
    assert (O : forall d1 b d2, se_asked d1 -> olabE P d1 d2 b -> se_out_ext P d1 b d2 -> se_asked d2 /\ act_put b = []).
    { intros x1 b x2 K Ho (Hw & _ & Hx). assert (Ex : x2 = x1).
      { destruct K as (_ & K2 & K3 & _). unfold se_output in Hx. rewrite K3, K2 in Hx. cbn [re_ok negb] in Hx. apply ok_inj in Hx. congruence. }
      subst x2. split; [exact K|].
      destruct (olab_io (se_shape P) _ _ _ Ho) as (ev & S1 & _ & S2 & _). rewrite <- S2. apply sstep_log in S1.
      rewrite <- (app_nil_r (slog (io x1))) in S1 at 1. apply app_inv_head in S1. subst ev. reflexivity. }
    assert (HSd : se_asked (during (e_sch e) d)) by exact HS.
    destruct Hr as [(Ea & Ho & ->)|[(_ & F & _)|(R1 & _ & a & d2 & r & Hi & Hx & Hr)]]; [| |].
    + rewrite Ea. split; [|reflexivity]. destruct oo; [exact HSd|]. destruct HSd as (_ & HSd). unfold se_asked. split; [cbn; tauto|exact HSd].
    + congruence.
    + assert (Hin : In a (e_acts e)) by (destruct Hr as [(-> & _)|(b & _ & -> & _)]; left; reflexivity).
      destruct (I _ _ _ _ Hin HSd Hi Hx) as [J1 J2].
      destruct Hr as [(-> & -> & _)|(b & _ & -> & Hol & Hox)].
      * split; [exact J1|]. unfold acts_put. cbn. rewrite J2. reflexivity.
      * destruct (O _ _ _ J1 Hol Hox) as [J3 J4]. split; [exact J3|]. unfold acts_put. cbn. rewrite J2, J4. reflexivity.
  - split.
    + pose proof (se_lock_step P d e d' H HLk) as HL'.
      rewrite Hd in HL'. rewrite Hd. cut (se_asked d1); [intro C; exact C|]. destruct HS as (K1 & K2 & K3 & K4 & K5 & K6).
      destruct Hr as [(_ & _ & _ & _ & _ & F1 & F2 & F3 & F4 & _ & _ & _ & _ & _ & _ & Hf)|[E _]];
        [|contradiction HR; left; exact E].
      destruct Hf as ((G1 & _) & _). unfold se_asked, ip_is_connected in *. rewrite ?F1, ?F2, ?F3, ?F4, ?G1. splits; assumption.
    + destruct (raw_dec e) as [R|R].
      * destruct (raw_unlocked _ _ _ _ _ (se_contract False P) d e d' H R HLk) as (_ & _ & E & _). exact E.
      * exact (proj2 (call_quiet _ _ _ _ d e d' H Ea R)).
Qed.

Theorem se_asked_ever : forall P d tr d', se_hist P d tr d' -> se_asked d -> Forall (fun e => ~ se_release e) tr ->
  se_asked d' /\ sent tr = [].
Proof.
  intros P d tr d' H. induction H as [d|d e d1 tr d' Hs Hh IH]; intros HK HF; [split; [exact HK|reflexivity]|].
  inversion HF as [|? ? F1 F2]; subst. destruct (se_asked_step P d e d1 Hs HK F1) as [K1 K2]. destruct (IH K1 F2) as [K3 K4].
  split; [exact K3|]. rewrite sent_cons, K2, K4. reflexivity.
Qed.

Theorem se_ask_asked : forall P N n d tr1 d1 e d2, se_on P d se_c0 (rbuf d) d -> avail (wbuf d) = 0 -> ring_ok (rbuf d) -> avail (rbuf d) < rsize (rbuf d) ->
  dialogue (se_step P) se_hum N (se_fetch_replies P n) d tr1 d1 -> se_step P d1 e d2 -> roomy N d1 e -> hears None e -> e_sch e = [] ->
  modest n -> (0 < n)%Z -> 30 < rxsz (io d) -> 40 <= N -> se_asked d2.
Proof.
  intros P N n d tr1 d1 e d2 H0 Hv Hok Hsp Hd1 Hs Hr Hh He Hn Hp Hrx HN. unfold se_fetch_replies in *.
  destruct (se_stage_notice P N _ d (rbuf d) n d tr1 d1 Hd1 (conj H0 eq_refl) ltac:(lia) Hv Hn) as (xa & ta & A1 & A2 & A3 & A4).
  destruct (se_rest_at P N d _ _ xa ta d1 A4 A3) as (R1 & R2 & R3).
  destruct (se_ask_now P N d n (rbuf d) d1 e d2 R3 Hp Hs Hr Hh He HN Hrx ltac:(unfold ring_space; lia)) as (_ & [Hat _] & _).
  on_inv Hat. destruct K as ((G1 & G2 & G3 & _) & _ & G4 & _). unfold se_asked. rewrite Cs, Cr, Cw. splits; auto. cbn; tauto.
Qed.

(** The line a run() reads meanwhile consists of the bytes it takes, after those read before. *)
Lemma se_asked_reads : forall P d e d' tk L, se_step P d e d' -> se_asked d -> In (aLine tk L) (e_acts e) ->
  exists t, taken (e_ev e) = tk ++ t /\ L = pending d ++ tk.
Proof.
  intros P d e d' tk L H HS Hin. assert (HLk : fLock (fl d) = false) by apply HS. assert (HF : fReset (fl d) = false) by apply HS.
  destruct (se_cases P d e d' H) as (d1 & Hd & HA & [(oo & Eo & _)|(Hn & Ea & Hr & Hc)]); [|rewrite Ea in Hin; destruct Hin].
  assert (Hput : taken (e_ev e) = acts_taken (e_acts e)).
  { destruct H as (_ & _ & _ & _ & _ & _ & Hio & _). rewrite Eo in Hio. apply Hio. }
  clear d1 Hd. destruct (se_parts P d e d' oo H Eo HLk) as (d1 & Hd & Hr).
  destruct Hr as [(Ea & Ho & ->)|[(_ & F & _)|(R1 & _ & a & d2 & r & Hi & Hx & Hr)]]; [rewrite Ea in Hin; destruct Hin|congruence|].
  destruct Hr as [(E & _ & _)|(b & _ & E & Hol & _)]; rewrite E in Hin, Hput; unfold acts_taken in Hput; cbn [map concat] in Hput.
  - destruct Hin as [->|[]]. inversion Hi; subst. eexists. split; [exact Hput|reflexivity].
  - destruct Hin as [->|[->|[]]]; [|inversion Hol]. inversion Hi; subst. eexists. split; [exact Hput|reflexivity].
Qed.

Fixpoint startsb (s : bytes) (p t : bytes) : bool :=
  match t with [] => prefixb s p | c :: t' => prefixb s p || startsb s (p ++ [c]) t' end.
Lemma startsb_ok : forall s t1 t2 p, startsb s p (t1 ++ t2) = false -> prefixb s (p ++ t1) = false.
Proof.
  induction t1 as [|c t1 IH]; intros t2 p H; cbn [app] in *.
  - rewrite app_nil_r. destruct t2; cbn [startsb] in H; [exact H|]. apply orb_false_iff in H as [H _]. exact H.
  - cbn [startsb] in H. apply orb_false_iff in H as [_ H]. specialize (IH t2 _ H). rewrite <- app_assoc in IH. exact IH.
Qed.

(** Computes that a script contains none of these events. *)
Fixpoint unreleasedb (P : plat) (h : list (dop esop * list (list isr))) (d : dv) : bool :=
  match h with
  | [] => true
  | (o, sch) :: h =>
      match d_step (se_driver P) o sch d with
      | UB _ => false
      | Ok (_, ev, d1) => match o with OpResetStates => false | _ => true end &&
          negb (startsb (bs "ERROR") (pending d) (taken ev)) && negb (startsb (bs "FAIL") (pending d) (taken ev)) &&
          negb (startsb (bs "+CIPRECVDATA") (pending d) (taken ev)) && unreleasedb P h d1
      end
  end.
Lemma unreleasedb_ok : forall P d tr d', se_hist P d tr d' -> se_asked d -> unreleasedb P (map (fun e => (e_op e, e_sch e)) tr) d = true ->
  Forall (fun e => ~ se_release e) tr.
Proof.
  intros P d tr d' H. induction H as [d|d e d1 tr d' Hs Hh IH]; intros HK HF; [constructor|].
  cbn [map unreleasedb] in HF. pose proof Hs as (_ & _ & _ & E & _). rewrite E in HF. rewrite !andb_true_iff, !negb_true_iff in HF.
  destruct HF as ((((F1 & F2) & F3) & F4) & F5).
  assert (Hq : ~ se_release e).
  { intros [X|(tk & L & Hin & X)]; [rewrite X in F1; discriminate F1|].
    destruct (se_asked_reads P d e d1 tk L Hs HK Hin) as (t & Et & ->).
    rewrite Et in F2, F3, F4. apply startsb_ok in F2, F3, F4. destruct X as [X|[X|X]]; congruence. }
  constructor; [exact Hq|]. apply IH; [|exact F5]. exact (proj1 (se_asked_step P d e d1 Hs HK Hq)).
Qed.
