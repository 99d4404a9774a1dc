(** The control flow of the SIM7x00 driver: a whole run. *)
From Coq Require Import String Ascii ZArith List Bool Arith Lia ZifyBool ZifyNat.
From Verif Require Import Base QueueSpec LineSpec SerialSpec Ring RingProofs LineRing LineRingProofs Serial SerialProofs
  SerStep TaskMacros CStr CStrProofs Dev DevProofs SimDev SimProofs SimSpec Sym DrvStep DrvCommon Sim7x00 Sim7Spec Sim7Proofs Sim7Ctl Sim7CtlIn.
Import ListNotations.
Local Open Scope nat_scope.
Ltac Zify.zify_post_hook ::= Z.div_mod_to_equations.
Local Notation dv := (dev s7send s7reply simx).


Lemma s7_standard_cases : forall (U : Prop) d, s7_inv d -> parsed (lbuf d) ->
  wp U (s7_standard_reply d) (fun p =>
    p = (false, d) \/
    (exists w, wait d = Some w /\ prefixb w (lbuf d) = true /\ p = (false, set_wait None d)) \/
    (wait d <> None /\ prefixb (bs "ERROR") (lbuf d) = true /\ p = (true, set_wait None (set_cst csGeneralError (on_reset true d))))).
Proof.
  intros U d H Hp. open_inv d H. unfold s7_standard_reply. gs. destruct wt0; symsi.
  all: first [left; reflexivity | right; left; eexists; splits; [reflexivity|eassumption|reflexivity] | right; right; split; [discriminate|split; reflexivity]].
Qed.

Lemma s7_check_cases : forall (U : Prop) (d : dv), parsed (lbuf d) ->
  wp U (sim_check_connection (bs "+IPCLOSE: 0,") d) (fun d' =>
    d' = d \/
    (prefixb (bs "+CIPRXGET: 1,0") (lbuf d) = true /\ d' = on_data true d) \/
    (prefixb (bs "+IPCLOSE: 0,") (lbuf d) = true /\ d' = on_ip false (set_wait None d))).
Proof. intros U d Hp. symsi; auto 6. Qed.

Lemma s7_ictl_wait : forall d d' w, wait d = Some w -> prefixb w (lbuf d) = true -> s7_ictl (lbuf d) (set_wait None d) d' -> s7_ictl (lbuf d) d d'.
Proof.
  intros d d' w Hw Hm (A1 & A2 & A3 & A4 & A5 & A6 & A7 & A8 & A9 & A10 & A11 & A12 & A13 & A14). unfold s7_ictl.
  ddev d. unfold s7_cfg, s7_sync, s7_line_in in *. dsimp. splits; auto; try apply A3; try apply A10.
  - intros C HO (K1 & K2 & K3 & K4). apply A4; [exact HO|]. unfold s7_conf. gs. dsimp. splits; auto. intro E.
    right. destruct (K1 E) as [K|[K|K]]; auto. right. apply HO. congruence.
  - destruct A8 as [A8|(A8 & [[Q _]|A8'])]; auto. contradiction Q. reflexivity.
Qed.

Lemma s7_error_ctl : forall d, wait d <> None -> prefixb (bs "ERROR") (lbuf d) = true ->
  s7_ictl (lbuf d) d (set_wait None (set_cst csGeneralError (on_reset true d))).
Proof.
  intros d Hw Hp. unfold s7_ictl. ddev d. unfold s7_cfg, s7_sync, s7_line_in, s7_line, s7_conf. dsimp. splits; auto.
  - intros C HO (K1 & K2 & K3 & K4). gs. unfold ip_is_connected. gs. splits; auto. discriminate.
  - intros (A & ->) _. split; [lia|congruence].
Qed.

Lemma s7_ictl_check : forall d d1 d2, s7_ictl (lbuf d) d d1 -> 12 <= s7_rank (sst d1) -> s7_line_in d -> lbfill d1 = 0 ->
  (lbuf d1 = lbuf d \/ prefixb (bs "+CDNSGIP: 1") (lbuf d1) = true) ->
  (d2 = d1 \/ (prefixb (bs "+CIPRXGET: 1,0") (lbuf d1) = true /\ d2 = on_data true d1) \/
   (prefixb (bs "+IPCLOSE: 0,") (lbuf d1) = true /\ d2 = on_ip false (set_wait None d1))) ->
  s7_ictl (lbuf d) d d2.
Proof.
  intros d d1 d2 H HR HLin Hlf HL HC. pose proof H as HH.
  destruct HH as (A1 & A2 & A3 & A4 & A5 & A6 & A7 & A8 & A9 & A10 & A11 & A12 & A13 & A14).
  destruct HC as [->|[[E ->]|[E ->]]]; [assumption| |]; unfold s7_ictl; specialize (A6 HLin Hlf);
    unfold s7_cfg, s7_sync, s7_line in *; ddev d1; dsimp; splits; auto; try apply A3; try apply A10; try apply A6.
  - right. split; [reflexivity|]. destruct HL as [<-|HL]; [assumption|]. pose proof (prefix_clash _ _ _ HL E) as X. discriminate X.
  - intros C HO HK. specialize (A4 C HO HK). destruct A4 as (K1 & K2 & K3 & K4). unfold s7_conf. gs. dsimp. splits; auto.
    intro Z. subst. cbn in HR. lia.
  - right. split; [reflexivity|]. destruct HL as [<-|HL]; [assumption|]. pose proof (prefix_clash _ _ _ HL E) as X. discriminate X.
Qed.

Lemma s7_parse_ctl : forall P (U : Prop) d, s7_inv d -> parsed (lbuf d) -> lbfill d = 0 -> s7_line_in d -> s7_sync d ->
  (forall a, rst d = R7Cdnsgip -> dns_good (lbuf d) -> dns_ip (str_body (lbuf d)) = Some a -> 15 < length a -> U) ->
  wp U (s7_parse P d) (fun p => s7_ictl (lbuf d) d (snd p)).
Proof.
  intros P U d H Hp Hf Hl Hs HU.
  unfold s7_parse. apply wp_bind. eapply wp_mono; [apply s7_standard_cases; assumption|]. intros p Hc.
  assert (HN : s7_inv (set_wait None d)) by (clear - H; open_inv d H; inv_leaf).
  assert (HX : forall d1, s7_inv d1 -> lbuf d1 = lbuf d -> lbfill d1 = 0 -> rst d1 = rst d -> s7_line_in d1 -> s7_sync d1 ->
     (forall d2, s7_ictl (lbuf d1) d1 d2 -> s7_ictl (lbuf d) d d2) ->
     wp U (bind (s7_special_reply P d1) (fun '(ret0, d0) => if ret0 then Ok (true, d0)
        else if s7_rank S7Connected <=? s7_rank (sst d0)
             then let* d2 := sim_check_connection (bs "+IPCLOSE: 0,") d0 in Ok (false, d2) else Ok (false, d0)))
        (fun p => s7_ictl (lbuf d) d (snd p))).
  { intros d1 I1 L1 F1 R1 Li1 S1 T1.
    assert (Hp1 : parsed (lbuf d1)) by (rewrite L1; exact Hp).
    assert (HU1 : forall a, rst d1 = R7Cdnsgip -> dns_good (lbuf d1) -> dns_ip (str_body (lbuf d1)) = Some a -> 15 < length a -> U)
      by (intro a; rewrite R1, L1; apply HU).
    pose proof (s7_special_parsed P U d1 I1 Hp1 F1 HU1) as Q1.
    pose proof (s7_special_ctl P U d1 I1 Hp1 F1 Li1 S1 HU1) as Q2.
    destruct (s7_special_reply P d1) as [[[] d2]|u]; cbn [bind wp snd] in *; [apply T1; exact Q2| |exact Q2].
    destruct (s7_rank S7Connected <=? s7_rank (sst d2)) eqn:Er; [|apply T1; exact Q2].
    destruct Q1 as ((_ & Hp2 & (_ & _ & _ & Hlf2) & _ & HL2) & _). apply wp_bind. eapply wp_mono; [apply s7_check_cases; exact Hp2|].
    intros d3 Hd3. cbn [wp snd]. apply T1. eapply s7_ictl_check; eauto.
    - apply Nat.leb_le in Er. exact Er.
    - congruence.
    - tauto. }
  destruct Hc as [->|[(w & Hw & Hm & ->)|(Hw & Hm & ->)]].
  - apply HX; auto.
  - apply HX; auto; unfold s7_line_in in *; gs; auto. intros d2. apply s7_ictl_wait with w; auto.
  - cbn [wp snd]. apply s7_error_ctl; auto.
Qed.


(** Nothing but bytes of an unfinished line, or of discarded payload. *)
Definition s7_same (d d' : dv) : Prop :=
  sst d' = sst d /\ rst d' = rst d /\ cst d' = cst d /\ wait d' = wait d /\ rssi d' = rssi d /\ ext d' = ext d /\
  fConnect (fl d') = fConnect (fl d) /\ fReset (fl d') = fReset (fl d) /\ fData (fl d') = fData (fl d) /\
  fDisc (fl d') = fDisc (fl d) /\ fIp (fl d') = fIp (fl d) /\ fLock (fl d') = fLock (fl d).

Definition s7_in (d d' : dv) : Prop :=
  s7_same d d' \/
  exists tk, ioeff (io d) (io d') tk [] /\ whole_line (pending d ++ tk) /\ s7_ictl (pending d ++ tk) d d'.

Lemma s7_ictl_line : forall L r d y d', ~ In NUL L \/ True -> 
  s7_ictl (L ++ NUL :: r) (set_lbfill 0 (set_lbuf (L ++ NUL :: r) (set_io y d))) d' -> s7_ictl L d d'.
Proof.
  intros L r d y d' _ H.
  assert (HP : forall lit, forallb (fun c => negb (Ascii.eqb c NUL)) lit = true -> prefixb lit (L ++ NUL :: r) = prefixb lit L).
  { intros lit Hl. apply prefixb_line. intro Hin. rewrite forallb_forall in Hl. apply Hl in Hin. rewrite Ascii.eqb_refl in Hin. discriminate. }
  unfold s7_ictl in *.
  rewrite (HP s7_opened eq_refl), (HP (bs "ERROR") eq_refl), (HP (bs "+CIPOPEN: 0,") eq_refl), (HP (bs "+CDNSGIP: 0") eq_refl),
    (HP (bs "+CSQ: ") eq_refl), (HP (bs "+CDNSGIP: 1") eq_refl), (HP (bs "+IPCLOSE: 0,") eq_refl), (HP (bs "+CIPRXGET: 1,0") eq_refl),
    (HP (bs "+CIPRXGET: 2,0,") eq_refl) in H.
  unfold s7_conf, s7_cfg, s7_sync, s7_line_in, ip_is_connected in *. ddev d. dsimp. exact H.
Qed.

Lemma s7_input_ctl : forall P (U : Prop) d, s7_inv d -> s7_line d -> s7_sync d -> (s7_long_dns d -> U) ->
  wp U (s7_input P d) (fun p => s7_in d (snd p) /\ s7_line (snd p)).
Proof.
  intros P U d H HL HS HU. pose proof (s7_input_step P U d H HU) as Hin.
  pose proof H as Hi. destruct Hi as (Hd & Hip & Hid & Hmx & Hipn & Hidn).
  unfold s7_input in *. pose proof (fill_ok _ _ _ d ltac:(apply Hd) ltac:(apply Hd)) as Hf.
  destruct (at_fill d) as [[b d1]|u] eqn:Ef; cbn [wp bind] in *; [|contradiction].
  destruct b.
  - destruct Hf as [[E F]|[(y & tk & lb & E & _)|(y & tk & lb & r & E & F & HI & Hlb & Htk & Hwl & Hlb2)]];
      inversion E. subst d1. clear E.
    assert (Hp : parsed lb) by (exact (fill_parsed _ _ _ Hlb2 Hlb)).
    assert (H1 : s7_inv (set_lbfill 0 (set_lbuf lb (set_io y d)))).
    { clear - H HI Hp. open_inv d H. inv_leaf. }
    assert (HD : forall a, rst d = R7Cdnsgip -> dns_good lb -> dns_ip (str_body lb) = Some a -> 15 < length a -> U).
    { intros a A1 A2 A3 A4. apply HU. exists (set_lbfill 0 (set_lbuf lb (set_io y d))), a. splits; auto. }
    assert (Hli : s7_line_in (set_lbfill 0 (set_lbuf lb (set_io y d)))).
    { unfold s7_line_in. gs. split; [assumption|]. destruct HL as [L1 _]. destruct Hd as (_ & _ & _ & _ & _ & _ & _ & _ & _ & _ & Ht & _).
      destruct (Z.eq_dec (toRead d) 0) as [|N]; [assumption|]. destruct L1 as [L1 _]; [lia|congruence]. }
    pose proof (s7_parse_parsed P U _ H1 Hp eq_refl HD) as Q1.
    pose proof (s7_parse_ctl P U _ H1 Hp eq_refl Hli HS HD) as Q2.
    destruct (s7_parse P (set_lbfill 0 (set_lbuf lb (set_io y d)))) as [[ret d2]|]; cbn [wp snd] in *; [|exact Q2].
    destruct Q1 as ((_ & _ & (K1 & K2 & K3 & K4) & _) & _). dsimp. split.
    + right. exists tk. splits; [rewrite K1; exact HI|exact Hwl|]. rewrite Hlb2 in Q2. eapply s7_ictl_line; [right; exact I|exact Q2].
    + destruct Q2 as (_ & _ & _ & _ & _ & Q & _). apply Q; auto.
  - assert (Hr : wp U (if fDisc (fl d1) && s7_is_receiving (sst d1) then (let* d := at_flush_read_buffer d1 in Ok (false, d)) else Ok (false, d1))
             (fun p => dok (snd p) /\ sst (snd p) = sst d /\ rst (snd p) = rst d /\ ext (snd p) = ext d /\
               istep s7_insend (fun _ => whole_line) (fun _ => partial_line) s7_clears (fun _ => False) d (fst p) (snd p)))
      by (apply (input_rest _ _ _ s7_insend s7_clears U (s7_is_receiving (sst d1)) d d1 Hd Hf)).
    assert (Hk : wp U (if fDisc (fl d1) && s7_is_receiving (sst d1) then (let* d := at_flush_read_buffer d1 in Ok (false, d)) else Ok (false, d1))
             (fun p => s7_same d (snd p) /\ s7_line (snd p))); [|eapply wp_mono; [exact Hk|]; intros [rr dd]; cbn [snd]; intros [X1 X2]; split; [left|]; assumption].
    clear Hr Hin.
    assert (E1 : exists y (tk : bytes) lb, d1 = set_lbfill (lbfill d + length tk) (set_lbuf lb (set_io y d)) /\ (fLine (fl d) = false -> tk = []) /\ serial_wf (ser y)).
    { destruct Hf as [[E F]|[(y & tk & lb & E & F & HI & _)|(y & tk & lb & r & E & _)]]; inversion E; subst d1.
      - exists (io d), [], (lbuf d). splits; auto; [destruct d; cbn; rewrite Nat.add_0_r; reflexivity|apply Hd].
      - exists y, tk, lb. splits; auto; [congruence|exact (ioeff_wf _ _ _ _ HI)]. }
    destruct E1 as (y & tk & lb & -> & Ht & Hy). clear Hf Ef.
    assert (HL' : s7_line (set_lbfill (lbfill d + length tk) (set_lbuf lb (set_io y d)))).
    { unfold s7_line in *. gs. split; [apply HL|]. intro F. rewrite (Ht F), (proj2 HL F). reflexivity. }
    destruct (fDisc _ && _) eqn:Ed.
    + apply wp_bind. assert (Htr : (0 <= toRead d)%Z) by apply Hd. apply wp_flush_read_buffer; [exact Hy|exact Htr|].
      clear Hd Hip Hid Hmx Hipn H HS HU Htr. intros y2 tk2 _ _ Hle. unfold s7_line in *. unfold s7_same. ddev d. dsimp. cbn [wp snd].
      destruct (_ =? _)%Z eqn:Eq; gs; splits; auto; try (intro; lia); try discriminate; try (intro; apply HL'; lia).
      * apply HL'.
    + cbn [wp snd]. split; [|exact HL']. unfold s7_same. ddev d. dsimp. splits; reflexivity.
Qed.
