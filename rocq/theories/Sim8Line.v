(** What single reply lines and commands of the SIM800 driver do. *)
From Coq Require Import String Ascii ZArith List Bool Arith Lia ZifyBool ZifyNat.
From Verif Require Import Base QueueSpec LineSpec SerialSpec Ring RingProofs LineRing LineRingProofs Serial SerialProofs
  SerStep TaskMacros CStr CStrProofs Dev DevProofs SimDev SimProofs SimSpec SimParse SimLog Sym DrvStep DrvCommon DrvRun DrvHist
  Sim800 Sim8Spec Sim8Proofs Sim8Ctl Sim8CtlIn Sim8Run Sim8Hist Sim8Thms Sim8More.
Import ListNotations.
Local Open Scope nat_scope.
Ltac Zify.zify_post_hook ::= Z.div_mod_to_equations.
Local Notation dv := (dev s8send s8reply simx).
Local Notation ent := (@entry simop).
Local Notation ilab8 := (ilab s8_insend (fun _ : dv => whole_line) (fun _ : dv => partial_line) s8_clears).
Local Notation olab8 := (olab r8_ok s8_says s8_tail s8_insend true).

(** ** What a line changes *)

Definition s8_refused (L : bytes) : bool := prefixb (bs "+PDP: DEACT") L || prefixb (bs "+CME ERROR") L || prefixb (bs "ERROR") L.
Definition dots (L : bytes) : nat := count_occ ascii_dec (cbody L) "."%char.

(** The identification after the line [L]; [b]: the line was taken. *)
Definition s8_ident (L : bytes) (b : bool) (d d' : dv) : Prop :=
  if b then exists s r, id_ok L (idbuf (ext d)) s /\
         ext d' = set_idbuf (firstn 23 (upto CR (s ++ NUL :: r)) ++
           NUL :: skipn (S (length (firstn 23 (upto CR (s ++ NUL :: r))))) (idbuf (ext d))) (ext d)
  else (forall s, ~ id_ok L (idbuf (ext d)) s) /\ ext d' = ext d.

(** Signal strength, address and identification after the line [L]. *)
Definition s8_effect (P : plat) (L : bytes) (d d' : dv) : Prop :=
  if s8_refused L then rssi d' = rssi d /\ ext d' = ext d /\ rst d' = rst d
  else match rst d with
  | R8Csq => rssi d' = (if prefixb (bs "+CSQ: ") L then csq_dbm (number P (skipn 6 L)) else rssi d) /\
      exists b, s8_ident L b d d' /\ rst d' = (if b || prefixb (bs "+CSQ: ") L then R8Ok else R8Csq)
  | R8Cdnsgip => rssi d' = rssi d /\
      ((dns_ok L /\ rst d' = R8Ok /\ exists a, dns_ip (cbody L) = Some a /\ length a <= 15 /\ ~ In NUL a /\
         ext d' = set_ip (a ++ NUL :: skipn (S (length a)) (ip (ext d))) (ext d)) \/
       (~ dns_ok L /\ rst d' = R8Cdnsgip /\ ext d' = ext d))
  | R8RequestID => rssi d' = rssi d /\ exists b, s8_ident L b d d' /\ rst d' = (if b then R8Ok else R8RequestID)
  | R8Cifsr => rssi d' = rssi d /\ ext d' = ext d /\ rst d' = (if dots L =? 3 then R8Ok else R8Cifsr)
  | R8Cipstart => rssi d' = rssi d /\ ext d' = ext d /\ (rst d' = R8Cipstart \/ rst d' = R8Ok /\ (fDisc (fl d) = true \/ wait d' = None))
  | _ => rssi d' = rssi d /\ ext d' = ext d
  end.

(** The state after the line [L]. *)
Definition s8_moved (L : bytes) (d d' : dv) : Prop :=
  sst d' = sst d \/ (rst d = R8Cipstart /\ fDisc (fl d) = true /\ sst d' = S8SendCipshut) \/
  (rst d = R8Ciprxget2 /\ prefixb (bs "+CIPRXGET: 2,0,") L = true /\ sst d' = S8Receiving).

Lemma s8_ident_line : forall L r d, lbuf d = L ++ NUL :: r -> length (L ++ NUL :: r) = 61 -> length (idbuf (ext d)) = 24 ->
  exists b d', sim_parse_id d = Ok (b, d') /\ s8_ident L b d d' /\ d' = set_x_idbuf (idbuf (ext d')) d.
Proof.
  intros L r d HL Hlen Hid. destruct (id_line L r d HL Hlen Hid) as [(s & E1 & E2 & E3)|(E1 & E3)]; rewrite E3.
  - eexists true, _. split; [reflexivity|]. split; [|reflexivity]. exists s, r. split; [split; assumption|reflexivity].
  - exists false, d. split; [reflexivity|]. split; [split; [|reflexivity]; intros s [K1 K2]; destruct (E1 s K1) as [K3 K4]; auto|].
    unfold set_x_idbuf. destruct d as [? ? ? ? ? ? ? ? ? ? ? ? ? ? ? ? ? ? ? x]; destruct x; reflexivity.
Qed.

Lemma s8_special_line : forall P L r d d', lbuf d = L ++ NUL :: r -> length (L ++ NUL :: r) = 61 -> s8_inv d -> s8_refused L = false ->
  s8_special_reply P d = Ok d' -> s8_effect P L d d' /\ s8_moved L d d' /\ (lbuf d' = lbuf d \/ parsed (lbuf d')) /\
    (rst d = R8Cipstart -> wait d' = wait d).
Proof.
  intros P L r d d' HL Hlen HI HR H. destruct HI as (Hd & Hip & Hid & _).
  unfold s8_effect, s8_moved. rewrite HR. unfold s8_special_reply in H. destruct (rst d) eqn:Er.
  - injection H as <-. auto 8.
  - rewrite (csq_line P L r d HL Hlen) in H.
    set (d1 := if prefixb (bs "+CSQ: ") L then set_rst R8Ok (set_rssi (csq_dbm (number P (skipn 6 L))) d) else d).
    assert (Hd1 : exists b d2, sim_parse_id d1 = Ok (b, d2) /\ s8_ident L b d1 d2 /\ d2 = set_x_idbuf (idbuf (ext d2)) d1)
      by (apply (s8_ident_line L r d1); unfold d1; destruct (prefixb _ L); assumption).
    destruct Hd1 as (b & d2 & E1 & E2 & E3).
    assert (H' : (let* (ok, d) := sim_parse_id d1 in Ok (if ok then set_rst R8Ok d else d))%res = Ok d').
    { unfold d1. destruct (prefixb _ L); exact H. }
    rewrite E1 in H'. cbn [bind] in H'. injection H' as <-.
    assert (X1 : lbuf d2 = lbuf d) by (rewrite E3; unfold d1; destruct (prefixb _ L); reflexivity).
    assert (X2 : sst d2 = sst d) by (rewrite E3; unfold d1; destruct (prefixb _ L); reflexivity).
    assert (X3 : rssi d2 = rssi d1) by (rewrite E3; reflexivity).
    assert (X4 : rst d2 = rst d1) by (rewrite E3; reflexivity).
    split; [|split; [left; destruct b; exact X2|split; [left; destruct b; exact X1|discriminate]]].
    split; [|exists b; split].
    + transitivity (rssi d2); [destruct b; reflexivity|]. rewrite X3. unfold d1. destruct (prefixb _ L); reflexivity.
    + assert (Y : ext d1 = ext d) by (unfold d1; destruct (prefixb _ L); reflexivity).
      unfold s8_ident in *. rewrite Y in E2. destruct b; exact E2.
    + destruct b; [reflexivity|]. cbn [orb]. rewrite X4. unfold d1. destruct (prefixb _ L); [reflexivity|exact Er].
  - destruct (s8_ident_line L r d HL Hlen Hid) as (b & d2 & E1 & E2 & E3). rewrite E1 in H. cbn [bind] in H. injection H as <-.
    assert (X1 : lbuf d2 = lbuf d) by (rewrite E3; reflexivity). assert (X2 : sst d2 = sst d) by (rewrite E3; reflexivity).
    assert (X3 : rssi d2 = rssi d) by (rewrite E3; reflexivity). assert (X4 : rst d2 = rst d) by (rewrite E3; reflexivity).
    split; [|split; [left; destruct b; exact X2|split; [left; destruct b; exact X1|discriminate]]].
    split; [destruct b; exact X3|]. exists b. split; [destruct b; exact E2|]. destruct b; [reflexivity|congruence].
  - rewrite (count_char_spec "."%char) in H by (rewrite ?HL; first [discriminate | apply in_or_app; right; left; reflexivity]). cbn [bind] in H. injection H as <-.
    unfold dots. rewrite HL, str_body_line in *. destruct (_ =? 3); auto 8.
  - pose proof (dns_line L r d HL Hlen Hip) as Hw. destruct (sim_parse_dns d) as [[ok d1]|]; [|discriminate]. cbn [bind wp] in *.
    injection H as <-. destruct Hw as [(E1 & E2 & E3)|[(E1 & E3)|(E1 & E2 & a & lb & E4 & E5 & E6 & E7 & E8 & E3)]]; apply pair_eq in E3 as [-> ->].
    + split; [|split; [|split; [|discriminate]]]; auto. split; [reflexivity|]. right. split; [intros [_ K]; contradiction|]. split; [exact Er|reflexivity].
    + destruct (prefixb (bs "+CDNSGIP: 0") L); (split; [|split; [|split; [|discriminate]]]; auto); (split; [reflexivity|]; right; split; [intros [K _]; congruence|]; split; [exact Er|reflexivity]).
    + split; [|split; [|split; [|discriminate]]]; auto. split; [reflexivity|]. left. split; [split; assumption|]. split; [reflexivity|]. exists a. splits; auto.
  - unfold at_handle_disconnect in H. destruct (fDisc (fl d)) eqn:Ed.
    + injection H as <-. splits; auto 8.
    + destruct (wait d) eqn:Ew.
      * rewrite (lstarts_line L r d HL Hlen) in H by (reflexivity || (cbn; lia)). cbn [bind] in H.
        destruct (prefixb (bs "0, CONNECT FAIL") L); injection H as <-; splits; auto 8.
      * injection H as <-. splits; auto 8.
  - rewrite (ciprxget4_line P L r d HL Hlen) in H. destruct (prefixb (bs "+CIPRXGET: 4,0,") L); cbn [bind] in H; injection H as <-; splits; auto; discriminate.
  - rewrite (ciprxget2_line P L r d HL Hlen) in H. destruct (prefixb (bs "+CIPRXGET: 2,0,") L); cbn [bind] in H; injection H as <-; splits; auto 8; discriminate.
Qed.

Theorem s8_line_both : forall P d ret d' L, s8_handles P d ret d' L -> s8_effect P L d d' /\ s8_moved L d d'.
Proof.
  intros P d ret d' L (r & y & Hlen & _ & HI & H).
  set (x := line_at L r y d) in *. assert (HL : lbuf x = L ++ NUL :: r) by reflexivity.
  cut (s8_effect P L x d' /\ s8_moved L x d'); [intro C; exact C|]. clearbody x. clear y d. rename x into d.
  pose proof HI as ((_ & _ & _ & _ & _ & _ & _ & _ & _ & Hwt & _) & Hip & Hid & _).
  assert (Hc : forall d1 d2 : dv, (lbuf d1 = lbuf d \/ parsed (lbuf d1)) ->
    (if s8_rank S8Connected <=? s8_rank (sst d1) then let* d := sim_check_connection (bs "0, CLOSED") d1 in Ok (false, d) else Ok (false, d1))%res = Ok (ret, d2) ->
    rssi d2 = rssi d1 /\ ext d2 = ext d1 /\ rst d2 = rst d1 /\ sst d2 = sst d1 /\ (wait d2 = wait d1 \/ wait d2 = None)).
  { intros d1 d2 Hd1 E. destruct (_ <=? _); [|injection E as <- <-; auto 8].
    assert (Hl1 : length (lbuf d1) = 61) by (destruct Hd1 as [->|[K _]]; [rewrite HL; exact Hlen|exact K]).
    unfold sim_check_connection in E. rewrite !lstarts_eq in E by (rewrite ?Hl1; cbn; lia || lfree). cbn [bind] in E.
    destruct (prefixb (bs "+CIPRXGET: 1,0") (lbuf d1)); [cbn [bind] in E; injection E as <- <-; auto 8|].
    destruct (prefixb (bs "0, CLOSED") (lbuf d1)); cbn [bind] in E; injection E as <- <-; auto 8. }
  unfold s8_parse in H. assert (He : s8_is_error d = Ok (s8_refused L)).
  { unfold s8_is_error, s8_refused. rewrite !(lstarts_line L r d HL Hlen) by (reflexivity || (cbn; lia)). cbn [bind]. destruct (prefixb _ L), (prefixb (bs "+CME ERROR") L); reflexivity. }
  rewrite He in H. cbn [bind] in H. destruct (s8_refused L) eqn:HR.
  { injection H as <- <-. unfold s8_effect, s8_moved. rewrite HR. auto. }
  assert (Hs : exists d1, s8_standard_reply d = Ok d1 /\ lbuf d1 = lbuf d /\ rssi d1 = rssi d /\ ext d1 = ext d /\ rst d1 = rst d /\ sst d1 = sst d /\ fl d1 = fl d /\ s8_inv d1).
  { unfold s8_standard_reply. destruct (wait d) as [w|] eqn:Ew.
    - destruct Hwt as [Hw1 Hw2]. rewrite (lmatch_line L r d HL Hlen) by first [apply nulfree_of; assumption | lia]. cbn [bind].
      destruct (prefixb w L) eqn:Em.
      + exists (set_wait None d). splits; auto. clear - HI. open_inv d HI. inv_leaf.
      + exists d. splits; auto.
    - exists d. splits; auto. }
  destruct Hs as (d1 & Es & A1 & A2 & A3 & A4 & A5 & A6 & A7). rewrite Es in H. cbn [bind] in H.
  destruct (s8_special_reply P d1) as [d2|] eqn:E2; [|discriminate]. cbn [bind] in H.
  destruct (s8_special_line P L r d1 d2 ltac:(rewrite A1; exact HL) Hlen A7 HR E2) as (HE & HM & Hl & Hwc).
  assert (Hl' : lbuf d2 = lbuf d \/ parsed (lbuf d2)) by (rewrite A1 in Hl; exact Hl).
  destruct (Hc d2 d' Hl' H) as (F1 & F2 & F3 & F4 & F5). split.
  - unfold s8_effect, s8_ident in *. rewrite HR in *. rewrite A4, A2, A3, A6 in HE. destruct (rst d); rewrite ?F1, ?F2, ?F3; try exact HE.
    destruct HE as (K1 & K2 & [K3|[K3 [K4|K4]]]); splits; auto. right. split; [exact K3|]. right. destruct F5 as [->|F5]; assumption.
  - unfold s8_moved in *. rewrite F4. rewrite A4, A5, A6 in HM. exact HM.
Qed.

Lemma s8_line_effect : forall P d ret d' L, s8_handles P d ret d' L -> s8_effect P L d d'.
Proof. intros P d ret d' L H. exact (proj1 (s8_line_both P d ret d' L H)). Qed.
Lemma s8_line_moved : forall P d ret d' L, s8_handles P d ret d' L -> s8_moved L d d'.
Proof. intros P d ret d' L H. exact (proj2 (s8_line_both P d ret d' L H)). Qed.
