(** writeBufferProcessed() of the SIM800 driver. *)
From Coq Require Import String Ascii ZArith List Bool Arith Lia ZifyBool ZifyNat.
From Verif Require Import Base QueueSpec LineSpec SerialSpec Ring RingProofs LineRing LineRingProofs Serial SerialProofs
  SerStep TaskMacros CStr CStrProofs Dev DevProofs SimDev SimProofs SimSpec SimParse SimLog Sym DrvStep DrvCommon DrvRun DrvHist DrvActs
  Sim800 Sim8Spec Sim8Proofs Sim8Ctl Sim8CtlIn Sim8Run Sim8Hist Sim8Thms Sim8More Sim8Line Sim8Req Sim8Rest.
Import ListNotations.
Local Open Scope nat_scope.
Ltac Zify.zify_post_hook ::= Z.div_mod_to_equations.
Local Notation dv := (dev s8send s8reply simx).
Local Notation ent := (@entry simop).
Local Notation olab8 := (olab r8_ok s8_says s8_tail s8_insend true).
(** Proves a goal that is one of the conjuncts of H (faster than tauto). *)
Ltac pick H :=
  lazymatch type of H with
  | _ /\ _ => let A := fresh in let B := fresh in destruct H as [A B]; first [pick A|pick B]
  | _ => exact H
  end.

Definition s8_acks (L : bytes) : bool := prefixb (bs "0, SEND OK") L || prefixb (bs "0, CLOSED") L.
Definition s8_nacks (L : bytes) : bool := s8_refused L.

Definition s8_tx (p : txphase) (d : dv) : Prop :=
  match p with
  | txNone => True
  | txAnnounced => cst d = csTransmitting /\ (sst d = S8SendData \/ sst d = S8SerialError) /\ (rst d = R8Ok \/ rst d = R8Csq \/ rst d = R8RequestID)
  | txSent => cst d = csTransmitting /\ (sst d = S8Connected \/ sst d = S8SerialError) /\ rst d = R8Ok /\ wait d = Some (bs "0, SEND OK")
  end.

Lemma s8_tx_fields : forall p d d', sst d' = sst d -> rst d' = rst d -> cst d' = cst d -> wait d' = wait d -> s8_tx p d -> s8_tx p d'.
Proof. intros p d d' E1 E2 E3 E4. unfold s8_tx. rewrite E1, E2, E3, E4. auto. Qed.

Lemma s8_output_tx : forall (U : Prop) d, s8_inv d ->
  (sst d = S8SendCstt -> not_str (apn (ext d)) -> U) ->
  (sst d = S8SendDnsQuery -> not_str (host d) -> U) ->
  wp U (s8_output d) (fun d' => (sst d = S8SendData \/ sst d = S8SerialError -> cst d' = cst d /\ (sst d' = sst d \/ sst d' = S8Connected) /\
    toRead d' = toRead d) /\
    (sst d' = S8SendData -> sst d = S8SendData \/ rst d' = R8Ok) /\ (sst d = S8SendData -> sst d' = S8SendData \/ wait d' = Some (bs "0, SEND OK") /\ rst d' = R8Ok) /\
    (sst d = S8SerialError -> sst d' = S8SerialError)).
Proof.
  intros U d H HU1 HU2. unfold s8_output. destruct (wait d) eqn:Ew.
  { cbn [wp]. splits; auto. }
  destruct (rst d) eqn:Er; cbn [r8_ok negb wp].
  all: try (splits; auto; fail).
  open_inv d H. subst. syms.
  all: try (match goal with |- wp _ (s8_machine _) _ =>
       unfold s8_machine, at_handle_connect, at_handle_disconnect; gs; destruct ss0; gs; syms end).
  all: try (apply HU1; [reflexivity | unfold not_str; congruence]).
  all: try (apply HU2; [reflexivity | assumption]).
  all: try nulip.
  all: clear Hwf Hr Ht Hrw Hrs Hww Hws Hwf2 Hl Hw Hpo Hip Hid Hmx Hipn Hidn HU1 HU2; cases; gs.
  all: split; [first [ (intros [?|?]; discriminate) | (intros _; split; [reflexivity|split; auto]) ] | split; [first [discriminate | auto]| split; first [discriminate | auto]]].
Qed.

(** A line other than ERROR leaves the reported state alone, except while the
    name or the connection is awaited. *)
Lemma s8_line_cst : forall P d ret d' L, s8_handles P d ret d' L -> rst d = R8Ok \/ rst d = R8Csq \/ rst d = R8RequestID ->
  s8_refused L = false -> cst d' = cst d.
Proof.
  intros P d ret d' L (r & y & Hlen & _ & HI & H) Hr He.
  set (x := line_at L r y d) in *. assert (HL : lbuf x = L ++ NUL :: r) by reflexivity.
  change (rst d) with (rst x) in Hr. change (cst d) with (cst x).
  pose proof HI as ((_ & _ & _ & _ & _ & _ & _ & _ & _ & Hwt & _) & Hip & Hid & _). clearbody x. clear y d. rename x into d.
  assert (Hc : forall d1 d2 : dv, length (lbuf d1) = 61 ->
    (if s8_rank S8Connected <=? s8_rank (sst d1) then let* d := sim_check_connection (bs "0, CLOSED") d1 in Ok (false, d) else Ok (false, d1))%res = Ok (ret, d2) ->
    cst d2 = cst d1).
  { intros d1 d2 Hl1 E. destruct (_ <=? _); [|injection E as <- <-; auto].
    unfold sim_check_connection in E. rewrite !lstarts_eq in E by (rewrite ?Hl1; cbn; lia || lfree). cbn [bind] in E.
    destruct (prefixb (bs "+CIPRXGET: 1,0") (lbuf d1)); [cbn [bind] in E; injection E as <- <-; auto|].
    destruct (prefixb (bs "0, CLOSED") (lbuf d1)); cbn [bind] in E; injection E as <- <-; auto. }
  unfold s8_parse in H. assert (Hz : s8_is_error d = Ok false).
  { rewrite <- He. unfold s8_is_error, s8_refused. rewrite !(lstarts_line L r d HL Hlen) by (reflexivity || (cbn; lia)). cbn [bind]. destruct (prefixb _ L), (prefixb (bs "+CME ERROR") L); reflexivity. }
  rewrite Hz in H. cbn [bind] in H.
  assert (Hs : exists d1, s8_standard_reply d = Ok d1 /\ lbuf d1 = lbuf d /\ rst d1 = rst d /\ ext d1 = ext d /\ cst d1 = cst d).
  { unfold s8_standard_reply. destruct (wait d) as [w|] eqn:Ew; [|exists d; splits; auto].
    destruct Hwt as [Hw1 Hw2]. rewrite (lmatch_line L r d HL Hlen) by first [apply nulfree_of; assumption | lia]. cbn [bind].
    destruct (prefixb w L) eqn:Em; [exists (set_wait None d); splits; auto|]. exists d. splits; auto. }
  destruct Hs as (d1 & Es & A1 & A2 & A3 & A4). rewrite Es in H. cbn [bind] in H. rewrite <- A4.
  assert (HL1 : lbuf d1 = L ++ NUL :: r) by congruence. assert (Hl1 : length (lbuf d1) = 61) by (rewrite HL1; exact Hlen).
  assert (Hid1 : length (idbuf (ext d1)) = 24) by (rewrite A3; exact Hid).
  unfold s8_special_reply in H. rewrite A2 in H. destruct Hr as [Hr|[Hr|Hr]]; rewrite Hr in H.
  - cbn [bind] in H. exact (Hc _ _ Hl1 H).
  - rewrite (csq_line P L r d1 HL1 Hlen) in H. destruct (prefixb (bs "+CSQ: ") L); cbn [bind] in H;
      [destruct (s8_ident_line L r (set_rst R8Ok (set_rssi (csq_dbm (number P (skipn 6 L))) d1)) HL1 Hlen Hid1) as (b & d2 & E1 & _ & E3)
      |destruct (s8_ident_line L r d1 HL1 Hlen Hid1) as (b & d2 & E1 & _ & E3)]; rewrite E1 in H; cbn [bind] in H;
      (refine (eq_trans (Hc _ _ _ H) _); [|]); destruct b; rewrite E3; auto.
  - destruct (s8_ident_line L r d1 HL1 Hlen Hid1) as (b & d2 & E1 & _ & E3); rewrite E1 in H; cbn [bind] in H; (refine (eq_trans (Hc _ _ _ H) _); [|]); destruct b; rewrite E3; auto.
Qed.

Theorem s8_tx_history : forall P d0 tr d, s8_fresh d0 -> s8_hist P d0 tr d -> s8_tx (tx_log s8_acks s8_nacks tr) d.
Proof.
  intros P d0 tr d HF Hh. unfold tx_log.
  apply (act_ghost _ _ _ _ _ (s8_contract P) _ s8_tx (tx_act s8_acks s8_nacks) (fun _ => txNone) (fun _ => True)) with (d := d0); auto.
  - intros p d1 K. destruct p; cbn [s8_tx] in *; [exact I| |]; destruct K as (K1 & K2 & K3); (split; [exact K1|split; [right; reflexivity|exact K3]]).
  - intros p d1 q d2 K _ _ _. exact I.
  - intros p d1 r d2 b K Hl [HI Hx]. destruct b as [q|tk|tk1 tk2|tk L| |cmd q|n q|q|tk]; try (inversion Hl; fail);
      try (destruct Hx as (X1 & X2 & X3 & X4 & _); apply (s8_tx_fields p d1); assumption).
    destruct Hx as [HC Hx]. cbn [tx_act]. destruct (s8_nacks L) eqn:En; [exact I|]. unfold s8_nacks in En.
    pose proof (s8_line_moved _ _ _ _ _ Hx) as HM.
    assert (HR : rst d2 = rst d1 \/ rst d2 = R8Ok) by (unfold s8_ictl in HC; pick HC).
    destruct p; [exact I| |].
    + destruct K as (K1 & K2 & K3). rewrite <- (s8_line_cst _ _ _ _ _ Hx K3 En) in K1. split; [exact K1|]. split.
      * destruct HM as [->|[(E & _)|(E & _)]]; [exact K2| |]; destruct K3 as [K3|[K3|K3]]; congruence.
      * destruct HR as [->|HR]; auto.
    + destruct K as (K1 & K2 & K3 & K4). rewrite <- (s8_line_cst _ _ _ _ _ Hx (or_introl K3) En) in K1.
      destruct (s8_acks L) eqn:Ea; [exact I|]. unfold s8_acks in Ea. apply orb_false_elim in Ea as [Ea1 Ea2]. split; [exact K1|]. split; [|split].
      * destruct HM as [->|[(E & _)|(E & _)]]; [exact K2| |]; congruence.
      * destruct HR as [->|HR]; auto.
      * inversion Hl as [| |? ? _ _ _ _ _ _ _ [W|[W Wc]]]; [congruence|]. destruct Wc as [(w & Hw & J)|[J|J]]; try congruence. apply s8_error_dec in J. unfold s8_refused in En. congruence.
  - intros e p d1 d2 b _ K Hl Hx. destruct (s8_out_effect _ _ _ Hl Hx) as (_ & (_ & _ & _ & Q4) & E2). destruct Hx as (HI & _ & Ho).
    pose proof (s8_output_tx True d1 HI (fun _ _ => I) (fun _ _ => I)) as HT. rewrite Ho in HT. destruct HT as (T1 & T2 & T3 & T4).
    assert (W : wait d1 <> None -> d2 = d1) by (intro Hw; unfold s8_output in Ho; destruct (wait d1); [congruence|contradiction]).
    assert (HA : b <> aQuiet -> wait d1 = None /\ rst d1 = R8Ok).
    { intro Hb. assert (Hn : ~ awaiting r8_ok d1) by (destruct Hl; [contradiction Hb; reflexivity|assumption..]). split; [|exact (s8_not_waiting _ Hn)].
      destruct (wait d1) eqn:E; [|reflexivity]. contradiction Hn. left. congruence. }
    destruct b as [q|tk|tk1 tk2|tk L| |cmd q|n q|q|tk]; try (inversion Hl; fail); cbn [tx_act].
    + destruct p; [exact I| |].
      * destruct (wait d1) as [w|] eqn:Ew; [rewrite W by congruence; exact K|]. destruct K as (K1 & K2 & K3). destruct (T1 K2) as (X1 & X2 & X3). split; [congruence|]. rewrite E2. split; [|exact K3].
        destruct K2 as [K2|K2]; [|right; exact (T4 K2)]. destruct (T3 K2) as [T|[T _]]; [left; exact T|]. inversion Hl; congruence.
      * rewrite W; [exact K|]. destruct K as (_ & _ & _ & K). congruence.
    + destruct (HA ltac:(discriminate)) as [A1 A2]. destruct p; [exact I| |].
      * destruct K as (K1 & K2 & K3). destruct (T1 K2) as (X1 & _). split; [congruence|].
        destruct E2 as [(_ & _ & (-> & _ & ->))|[(c & _ & _ & (-> & _ & ->))|[(c & Hs & _)|(E & _)]]]; cbn [fst snd].
        -- auto.
        -- auto.
        -- exfalso. destruct K2 as [K2|K2]; rewrite K2 in Hs; discriminate Hs.
        -- exfalso. destruct K2; congruence.
      * destruct K as (_ & _ & _ & K). congruence.
    + destruct (HA ltac:(discriminate)) as [A1 A2]. assert (HW : wait d2 = Some (bs ">") /\ cst d2 = csTransmitting) by (inversion Hl; auto).
      destruct HW as [HW1 HW2]. destruct (Q4 HW1) as [E|[E1 E3]]; [congruence|]. split; [exact HW2|]. split; [left; exact E1|left; exact E3].
    + destruct (HA ltac:(discriminate)) as [A1 A2]. destruct p; [exact I| |].
      * destruct K as (K1 & K2 & K3). destruct (T1 K2) as (X1 & X2 & _). inversion Hl as [| | |ev _ _ _ _ _ _ _ _ _ _ _ _ _ _ _ _ _ _ _ I1 I2|].
        assert (K4 : sst d1 = S8SendData) by (destruct (sst d1); try discriminate I1; reflexivity).
        destruct (T3 K4) as [T|[T5 T6]]; [rewrite T in I2; discriminate I2|].
        split; [congruence|]. split; [|split; assumption]. destruct X2 as [X2|X2]; [rewrite X2, K4 in I2; discriminate I2|left; assumption].
      * destruct K as (_ & _ & _ & K). congruence.
    + destruct (HA ltac:(discriminate)) as [A1 A2]. destruct p; [exact I| |].
      * exfalso. destruct K as (K1 & K2 & K3). destruct (T1 K2) as (X1 & X2 & _).
        inversion Hl. lia.
      * destruct K as (_ & _ & _ & K). congruence.
  - intros e p d1 d2 _ HI K _ Hn _ _ E1 E2 E3 E4. apply (s8_tx_fields p d1); assumption.
  - intros p d1 d2 _ _ _ _. exact I.
  - apply Forall_forall. auto.
  - exact I.
Qed.
