(** Rules for the functions the two Simcom drivers share. *)
From Coq Require Import String Ascii ZArith List Bool Arith Lia ZifyBool ZifyNat.
From Verif Require Import Base QueueSpec LineSpec SerialSpec Ring RingProofs LineRing LineRingProofs Serial SerialProofs
  SerStep TaskMacros CStr CStrProofs Dev DevProofs SimDev.
Import ListNotations.
Local Open Scope nat_scope.
Ltac Zify.zify_post_hook ::= Z.div_mod_to_equations.

(** A line as the parser finds it in the 61 byte buffer. *)
Definition parsed (lb : bytes) : Prop := length lb = 61 /\ In NUL lb.

(** Comparing a complete line with a string is comparing the bytes received. *)
Lemma prefixb_line : forall lit (L r : bytes), ~ In NUL lit -> prefixb lit (L ++ NUL :: r) = prefixb lit L.
Proof.
  induction lit as [|c lit IH]; intros L r H; [reflexivity|].
  destruct L as [|x L]; cbn [prefixb app].
  - destruct (Ascii.eqb c NUL) eqn:E; [|reflexivity]. apply Ascii.eqb_eq in E. subst. exfalso. apply H. left. reflexivity.
  - rewrite IH; [reflexivity|]. intro HH. apply H. right. exact HH.
Qed.

Lemma prefix_nul : forall lit lb, ~ In NUL lit -> In NUL lb -> prefixb lit lb = true -> In NUL (skipn (length lit) lb).
Proof.
  intros lit lb Hf Hin Hp. apply prefixb_spec in Hp as [r ->]. rewrite skipn_app, skipn_all, Nat.sub_diag. cbn [app skipn].
  apply in_app_iff in Hin as [H|H]; [contradiction|assumption].
Qed.

Section Rules.
Context {SS RS : Type}.
Notation dv := (dev SS RS simx).
Implicit Types d : dv.

(** The IP address text in a DNS reply: what stands between the third and the
    fourth quote. *)
Fixpoint behind_quotes (n : nat) (l : bytes) : option bytes :=
  match n with
  | O => Some l
  | S n' => match l with
            | [] => None
            | c :: r => if Ascii.eqb c DQ then behind_quotes n' r else behind_quotes n r
            end
  end.
Definition dns_ip (l : bytes) : option bytes :=
  match behind_quotes 3 l with Some r => Some (upto DQ r) | None => None end.
Definition quotes (l : bytes) : nat := count_occ ascii_dec l DQ.

Lemma after_quotes_behind : forall a n i r, n <= quotes (str_body a) ->
  behind_quotes n (str_body a) = Some r -> exists j, after_quotes n a i = Ok (i + j) /\ r = skipn j (str_body a) /\
    j <= length (str_body a).
Proof.
  induction a as [|c a IH]; intros n i r Hn Hb.
  - destruct n; [|cbn in Hn; lia]. exists 0. rewrite Nat.add_0_r. cbn in Hb |- *. splits; auto. congruence.
  - destruct n as [|n].
    { exists 0. rewrite Nat.add_0_r. cbn [after_quotes skipn]. splits; auto; [|lia].
      unfold behind_quotes in Hb. destruct (str_body (c :: a)); congruence. }
    unfold quotes in Hn. cbn [str_body after_quotes] in *. unfold aeqb in *. change "000"%char with NUL in *.
    destruct (Ascii.eqb_spec c NUL) as [->|Hne]; [cbn in Hn; lia|].
    cbn [behind_quotes count_occ] in *.
    destruct (Ascii.eqb_spec c DQ), (ascii_dec c DQ); try congruence.
    + destruct (IH n (S i) r ltac:(unfold quotes; lia) Hb) as (j & E & Er & L). exists (S j). rewrite E. splits.
      * f_equal. lia.
      * exact Er.
      * cbn. lia.
    + destruct (IH (S n) (S i) r Hn Hb) as (j & E & Er & L). exists (S j). rewrite E. splits.
      * f_equal. lia.
      * exact Er.
      * cbn. lia.
Qed.

Lemma behind_quotes_some : forall l n, n <= quotes l -> exists r, behind_quotes n l = Some r.
Proof.
  induction l as [|c l IH]; intros [|n] H; cbn [behind_quotes]; eauto; unfold quotes in *; cbn [count_occ] in H; [lia|].
  destruct (Ascii.eqb_spec c DQ), (ascii_dec c DQ); try congruence; apply IH; unfold quotes; lia.
Qed.

Lemma quotes_behind : forall l n r, behind_quotes n l = Some r -> quotes l = n + quotes r.
Proof.
  induction l as [|c l IH]; intros [|n] r H; cbn [behind_quotes] in H; try discriminate; try (injection H as <-; reflexivity).
  unfold quotes in *. cbn [count_occ]. destruct (Ascii.eqb_spec c DQ), (ascii_dec c DQ); try congruence.
  - apply IH in H. lia. - apply IH in H. assumption.
Qed.

Lemma blank_upto : forall a r, In NUL a -> blank_quotes a = Ok r -> str_body r = upto DQ (str_body a).
Proof.
  induction a as [|c a IH]; intros r H E; [destruct H|]. cbn [blank_quotes str_body] in *. unfold aeqb in E.
  change "000"%char with NUL in *. destruct (Ascii.eqb_spec c NUL) as [->|Hne].
  - injection E as <-. reflexivity.
  - destruct H as [->|H]; [congruence|]. destruct (blank_quotes a) as [r1|] eqn:E1; [|discriminate]. cbn [bind] in E.
    injection E as <-. cbn [str_body upto]. destruct (Ascii.eqb_spec c DQ) as [->|Hd].
    + reflexivity.
    + change "000"%char with NUL. destruct (Ascii.eqb_spec c NUL); [congruence|]. rewrite (IH r1); auto.
Qed.

Lemma skipn_body : forall a j, In NUL a -> j <= length (str_body a) -> str_body (skipn j a) = skipn j (str_body a).
Proof.
  intros a j H Hj. destruct (str_body_split a H) as [r E]. rewrite E at 1.
  rewrite skipn_app. replace (j - length (str_body a)) with 0 by lia. cbn [skipn].
  rewrite str_body_free; [reflexivity|]. intro Hin. apply (str_body_no_nul a).
  rewrite <- (firstn_skipn j (str_body a)). apply in_app_iff. auto.
Qed.

(** parseDnsReply().  The number of quotes decides; the address is stored if it fits. *)
Definition dns_good (lb : bytes) : Prop :=
  prefixb (bs "+CDNSGIP: 1") lb = true /\ 4 <= quotes (str_body lb) <= 10.

Lemma wp_parse_dns : forall (U : Prop) d (Q : _ -> Prop), parsed (lbuf d) -> length (ip (ext d)) = 16 ->
  (prefixb (bs "+CDNSGIP: 1") (lbuf d) = true -> ~ 4 <= quotes (str_body (lbuf d)) <= 10 -> Q (false, set_cst csDnsError d)) ->
  (prefixb (bs "+CDNSGIP: 1") (lbuf d) = false -> prefixb (bs "+CDNSGIP: 0") (lbuf d) = true -> Q (false, on_reset true d)) ->
  (prefixb (bs "+CDNSGIP: 1") (lbuf d) = false -> prefixb (bs "+CDNSGIP: 0") (lbuf d) = false -> Q (false, d)) ->
  (forall a, dns_good (lbuf d) -> dns_ip (str_body (lbuf d)) = Some a -> 15 < length a -> U) ->
  (forall a lb, dns_good (lbuf d) -> dns_ip (str_body (lbuf d)) = Some a -> length a <= 15 -> ~ In NUL a ->
     parsed lb -> prefixb (bs "+CDNSGIP: 1") lb = true ->
     Q (true, set_ext (set_ip (a ++ NUL :: skipn (S (length a)) (ip (ext d))) (ext d)) (set_lbuf lb d))) ->
  wp U (sim_parse_dns d) Q.
Proof.
  intros U d Q [Hlen Hnul] Hip HQ1 HQ2 HQ3 HU HQ4. unfold sim_parse_dns.
  rewrite lstarts_eq by (rewrite ?Hlen; cbn; lia || lfree). cbn [bind].
  destruct (prefixb (bs "+CDNSGIP: 1") (lbuf d)) eqn:E1.
  - rewrite (count_char_spec DQ) by (assumption || discriminate). cbn [bind]. fold (quotes (str_body (lbuf d))).
    destruct ((quotes (str_body (lbuf d)) <? 4) || (10 <? quotes (str_body (lbuf d)))) eqn:Eq.
    { cbn [wp]. apply HQ1; [reflexivity|]. apply orb_true_iff in Eq as [Eq|Eq]; apply Nat.ltb_lt in Eq; lia. }
    apply orb_false_iff in Eq as [Eq1 Eq2]. apply Nat.ltb_ge in Eq1. apply Nat.ltb_ge in Eq2.
    assert (Hg : dns_good (lbuf d)) by (split; [assumption|lia]).
    destruct (behind_quotes_some (str_body (lbuf d)) 3 ltac:(lia)) as [r Er].
    destruct (after_quotes_behind (lbuf d) 3 0 r ltac:(lia) Er) as (j & Ej & Hr & Hj). rewrite Ej. cbn [bind Nat.add].
    assert (Hns : In NUL (skipn j (lbuf d))) by (apply in_skipn_nul; assumption).
    destruct (blank_quotes_ok _ Hns) as (rest & Eb & Hbl & Hbn). rewrite Eb. cbn [bind].
    rewrite cstring_ok by assumption. cbn [bind].
    assert (Ha : dns_ip (str_body (lbuf d)) = Some (str_body rest)).
    { unfold dns_ip. rewrite Er. rewrite (blank_upto _ _ Hns Eb), skipn_body, <- Hr by assumption. reflexivity. }
    dsimp. cbn [ext]. destruct (le_lt_dec (length (str_body rest)) 15) as [Hle|Hgt].
    + rewrite wr_list_ok by (rewrite app_length, Hip; cbn; lia). cbn [bind wp firstn app Nat.add].
      rewrite <- app_assoc. cbn [app]. rewrite app_length. cbn [length]. rewrite Nat.add_1_r.
      specialize (HQ4 (str_body rest) (firstn j (lbuf d) ++ rest) Hg Ha Hle (str_body_no_nul _)).
      dsimp. apply HQ4.
      * split; [rewrite app_length, Hbl, firstn_length, skipn_length; lia|]. apply in_app_iff. right. assumption.
      * pose proof (quotes_behind _ _ _ Er) as Hq. destruct (str_body_split _ Hnul) as [z Ez].
        assert (E1' : prefixb (bs "+CDNSGIP: 1") (str_body (lbuf d)) = true)
          by (rewrite Ez, prefixb_line in E1 by lfree; exact E1).
        apply prefixb_spec in E1' as [t Et].
        assert (11 <= j).
        { destruct (le_lt_dec 11 j) as [|Hlt]; [assumption|exfalso].
          rewrite <- (firstn_skipn j (str_body (lbuf d))) in Hq. unfold quotes in Hq. rewrite count_occ_app, <- Hr in Hq.
          assert (count_occ ascii_dec (firstn j (str_body (lbuf d))) DQ = 0).
          { apply count_occ_not_In. rewrite Et, firstn_app. replace (j - length (bs "+CDNSGIP: 1")) with 0 by (cbn; lia).
            intro Hin. apply in_app_iff in Hin as [Hin|[]]. assert (Hin' : In DQ (bs "+CDNSGIP: 1"))
              by (rewrite <- (firstn_skipn j); apply in_app_iff; left; exact Hin).
            revert Hin'. lfree. }
          lia. }
        rewrite prefixb_app; [|rewrite firstn_length; cbn; lia].
        apply prefixb_spec. apply prefixb_spec in E1 as [t' Et']. exists (firstn (j - 11) t').
        rewrite Et', firstn_app. cbn [length bs list_ascii_of_string]. rewrite firstn_all2 by (cbn; lia). reflexivity.
    + rewrite wr_list_bad by (rewrite ?app_length, ?Hip; cbn; lia). cbn [bind wp]. eapply HU; eassumption.
  - rewrite lstarts_eq by (rewrite ?Hlen; cbn; lia || lfree). cbn [bind].
    destruct (prefixb (bs "+CDNSGIP: 0") (lbuf d)) eqn:E2; cbn [wp]; auto.
Qed.

Lemma wp_ciprxget4 : forall P (U : Prop) d (Q : _ -> Prop), parsed (lbuf d) ->
  (prefixb (bs "+CIPRXGET: 4,0,") (lbuf d) = false -> Q (false, d)) ->
  (forall v, prefixb (bs "+CIPRXGET: 4,0,") (lbuf d) = true -> strtol P (skipn 15 (lbuf d)) = Ok v ->
     Q (true, set_toReceive (u64 (toReceive d + i32 v)) d)) ->
  wp U (sim_parse_ciprxget4 P d) Q.
Proof.
  intros P U d Q [Hlen Hnul] HQ1 HQ2. unfold sim_parse_ciprxget4.
  rewrite lstarts_eq by (rewrite ?Hlen; cbn; lia || lfree). cbn [bind].
  destruct (prefixb (bs "+CIPRXGET: 4,0,") (lbuf d)) eqn:E; cbn [wp]; auto.
  destruct (strtol_safe P (skipn 15 (lbuf d))) as [v Ev].
  { apply (prefix_nul (bs "+CIPRXGET: 4,0,")); auto; lfree. }
  rewrite Ev. cbn [bind wp]. auto.
Qed.
Lemma wp_ciprxget2 : forall P (U : Prop) d (Q : _ -> Prop), parsed (lbuf d) ->
  (prefixb (bs "+CIPRXGET: 2,0,") (lbuf d) = false -> Q (false, d)) ->
  (forall v, prefixb (bs "+CIPRXGET: 2,0,") (lbuf d) = true -> strtol P (skipn 15 (lbuf d)) = Ok v ->
     Q (true, on_line false (set_toRead (u64 (toRead d + i32 v)) (set_toReceive (u64 (toReceive d - i32 v)) d)))) ->
  wp U (sim_parse_ciprxget2 P d) Q.
Proof.
  intros P U d Q [Hlen Hnul] HQ1 HQ2. unfold sim_parse_ciprxget2.
  rewrite lstarts_eq by (rewrite ?Hlen; cbn; lia || lfree). cbn [bind].
  destruct (prefixb (bs "+CIPRXGET: 2,0,") (lbuf d)) eqn:E; cbn [wp]; auto.
  destruct (strtol_safe P (skipn 15 (lbuf d))) as [v Ev].
  { apply (prefix_nul (bs "+CIPRXGET: 2,0,")); auto; lfree. }
  rewrite Ev. cbn [bind wp]. specialize (HQ2 v eq_refl Ev). dsimp. exact HQ2.
Qed.
Lemma wp_csq : forall P (U : Prop) d (Q : _ -> Prop), parsed (lbuf d) ->
  (prefixb (bs "+CSQ: ") (lbuf d) = false -> Q (false, d)) ->
  (forall v, prefixb (bs "+CSQ: ") (lbuf d) = true -> strtol P (skipn 6 (lbuf d)) = Ok v ->
     Q (true, set_rssi (csq_dbm v) d)) ->
  wp U (sim_parse_csq P d) Q.
Proof.
  intros P U d Q [Hlen Hnul] HQ1 HQ2. unfold sim_parse_csq.
  rewrite lstarts_eq by (rewrite ?Hlen; cbn; lia || lfree). cbn [bind].
  destruct (prefixb (bs "+CSQ: ") (lbuf d)) eqn:E; cbn [wp]; auto.
  destruct (strtol_safe P (skipn 6 (lbuf d))) as [v Ev].
  { apply (prefix_nul (bs "+CSQ: ")); auto; lfree. }
  rewrite Ev. cbn [bind wp]. auto.
Qed.

(** The text an ID reply carries, or nothing if the line is not taken for one. *)
Definition id_text (lb : bytes) : option bytes :=
  match lb with
  | [] => None
  | c :: _ =>
      if prefixb (bs "AT") lb || Ascii.eqb c CR then None
      else if prefixb (bs "+ICCID: ") lb then Some (skipn 8 lb)
      else if prefixb (bs "+") lb then None
      else Some lb
  end.

Lemma wp_parse_id : forall (U : Prop) d (Q : _ -> Prop), parsed (lbuf d) -> length (idbuf (ext d)) = 24 ->
  Q (false, d) ->
  (forall src, id_text (lbuf d) = Some src ->
     (nth_error (idbuf (ext d)) 2 = Some (id_code idIccid) -> iccid_valid src = Ok true) ->
     Q (true, set_x_idbuf (firstn 23 (upto CR src) ++
                NUL :: skipn (S (length (firstn 23 (upto CR src)))) (idbuf (ext d))) d)) ->
  wp U (sim_parse_id d) Q.
Proof.
  intros U d Q [Hlen Hnul] Hid HQ1 HQ2. unfold sim_parse_id.
  rewrite !lstarts_eq by (rewrite ?Hlen; cbn; lia || lfree). cbn [bind].
  destruct (lbuf d) as [|c lb] eqn:El; [discriminate|]. cbn [rd nth_error bind]. unfold rd at 1. cbn [nth_error bind].
  unfold aeqb. unfold id_text in HQ2.
  destruct (prefixb (bs "AT") (c :: lb) || Ascii.eqb c CR) eqn:E1; [cbn [wp]; assumption|].
  assert (Hgo : forall src, 23 < length src -> In NUL src ->
     (forall s, Some src = Some s -> (nth_error (idbuf (ext d)) 2 = Some (id_code idIccid) -> iccid_valid s = Ok true) ->
     Q (true, set_x_idbuf (firstn 23 (upto CR s) ++ NUL :: skipn (S (length (firstn 23 (upto CR s)))) (idbuf (ext d))) d)) ->
     wp U (let* t := rd (idbuf (ext d)) 2 in
           let* valid := if Ascii.eqb t (id_code idIccid) then iccid_valid src else Ok true in
           if valid then
             let* s := copy_until CR (IDSTRING_MAX_LENGTH - 1) src in
             let* b := wr_list (idbuf (ext d)) 0 (s ++ [NUL]) in
             Ok (true, set_x_idbuf b d)
           else Ok (false, d))%res Q).
  { intros src Hl Hn HQ. destruct (rd_ok' _ (idbuf (ext d)) 2 ltac:(lia)) as (t & Et & Hn2). rewrite Et. cbn [bind].
    assert (Hfin : (nth_error (idbuf (ext d)) 2 = Some (id_code idIccid) -> iccid_valid src = Ok true) ->
      wp U (let* s := copy_until CR (IDSTRING_MAX_LENGTH - 1) src in
            let* b := wr_list (idbuf (ext d)) 0 (s ++ [NUL]) in Ok (true, set_x_idbuf b d))%res Q).
    { intro Hv. rewrite copy_until_ok by (cbn; lia). cbn [bind]. change (IDSTRING_MAX_LENGTH - 1) with 23.
      assert (length (firstn 23 (upto CR src)) <= 23) by apply firstn_le_length.
      rewrite wr_list_ok by (rewrite app_length, Hid; cbn [length]; lia).
      cbn [bind wp Nat.add]. rewrite app_length. cbn [length]. rewrite Nat.add_1_r. rewrite <- app_assoc.
      change (firstn 0 (idbuf (ext d))) with (@nil ascii). cbn [app]. apply HQ; auto. }
    destruct (Ascii.eqb_spec t (id_code idIccid)) as [->|Hne].
    - destruct (iccid_valid_ok src Hn) as [b Eb]. rewrite Eb. cbn [bind]. destruct b; [apply Hfin; auto|cbn [wp]; assumption].
    - cbn [bind]. apply Hfin. rewrite Hn2. intro Hx. injection Hx as ->. congruence. }
  destruct (prefixb (bs "+ICCID: ") (c :: lb)) eqn:E2; cbn [negb andb].
  - apply Hgo; auto.
    + rewrite skipn_length. lia.
    + apply (prefix_nul (bs "+ICCID: ")); auto; lfree.
  - destruct (prefixb (bs "+") (c :: lb)) eqn:E3; [cbn [wp]; assumption|]. apply Hgo; auto. lia.
Qed.

Lemma wp_send_dns : forall (U : Prop) d (Q : _ -> Prop), swf d ->
  ((forall h, host d <> PStr h) -> U) ->
  (forall h y, host d = PStr h -> ioeff (io d) y [] [] -> txsz y - txav y < clen h + 20 -> Q (false, set_io y d)) ->
  (forall h y1 y, host d = PStr h -> ioeff (io d) y1 [] [] -> clen h + 20 <= txsz y1 - txav y1 ->
     wroteb y1 y (bs "AT+CDNSGIP=" ++ [DQ] ++ cbody h ++ [DQ] ++ [CR; LF]) -> Q (true, set_io y d)) ->
  wp U (sim_send_dns d) Q.
Proof.
  intros U d Q H HU HQ1 HQ2. unfold sim_send_dns. apply wp_bind. apply wp_space; [assumption|]. intros y1 E1. dsimp.
  destruct (host d) as [| |h] eqn:Eh; try (apply HU; intros h; congruence).
  destruct (Nat.ltb_spec (txsz y1 - txav y1) (clen h + 20)); [cbn [wp]; eauto|].
  apply wp_bind. apply wp_w_str; [wfser|]. intros y2 B2.
  apply wp_bind. apply wp_w_str; [dsimp; wfser|]. intros y3 B3.
  apply wp_bind. apply wp_w_str; [dsimp; wfser|]. intros y4 B4. dsimp. cbn [wp].
  specialize (HQ2 h y1 y4 eq_refl E1 H0). dsimp. apply HQ2.
  change (cbody (bs "AT+CDNSGIP=" ++ [DQ])) with (bs "AT+CDNSGIP=" ++ [DQ]) in B2.
  change (cbody quoteEndStr) with ([DQ] ++ [CR; LF]) in B4.
  change (bs "AT+CDNSGIP=" ++ [DQ] ++ cbody h ++ [DQ] ++ [CR; LF]) with ((bs "AT+CDNSGIP=" ++ [DQ]) ++ cbody h ++ ([DQ] ++ [CR; LF])).
  eapply wroteb_trans; [exact B2|]. eapply wroteb_trans; [exact B3|exact B4].
Qed.

Definition ciprxget2_cmd (n : Z) : bytes := bs "AT+CIPRXGET=2,0," ++ dec n ++ [CR; LF].

Lemma wp_send_ciprxget2 : forall (U : Prop) d (Q : _ -> Prop), swf d -> fits (rxsz (io d)) ->
  (0 <= maxrx (ext d) < 100000)%Z -> (0 <= toReceive d)%Z ->
  (forall y, ioeff (io d) y [] [] -> (rxsz (io d) - rxav y <= 8 \/ ring_space (rbuf d) = 0) -> Q (false, set_io y d)) ->
  (forall y1 y n, ioeff (io d) y1 [] [] -> wroteb y1 y (ciprxget2_cmd n) -> 0 < ring_space (rbuf d) ->
     n = Z.min (Z.min (Z.min (u64 (Z.of_nat (rxsz (io d)) - Z.of_nat (rxav y1) - 8)) (toReceive d))
                      (Z.of_nat (ring_space (rbuf d)))) (maxrx (ext d)) ->
     (sched (io d) = [] -> y1 = io d /\ 8 < rxsz (io d) - rxav (io d)) ->
     Q (true, set_io y d)) ->
  wp U (sim_send_ciprxget2 d) Q.
Proof.
  intros U d Q H Hf Hm Ht HQ1 HQ2. unfold sim_send_ciprxget2. apply wp_bind. apply wp_rx_request; auto.
  intros y1 n E1 Hsp Hn Hs. pose proof (u64_range (Z.of_nat (rxsz (io d)) - Z.of_nat (rxav y1) - 8)).
  change (Z.of_nat 8) with 8%Z in Hn.
  rewrite sprintf6_ok by lia. cbn [bind].
  apply wp_bind. apply wp_w_many; [wfser|]. intros y2 B2.
  apply wp_bind. apply wp_w_str; [dsimp; wfser|]. intros y3 B3.
  apply wp_bind. apply wp_w_str; [dsimp; wfser|]. intros y4 B4. dsimp. cbn [wp].
  specialize (HQ2 y1 y4 n E1). dsimp. apply HQ2; auto. unfold ciprxget2_cmd.
  eapply wroteb_trans; [exact B2|]. eapply wroteb_trans; [|exact B4].
  rewrite cbody_free in B3 by (apply digits_free, dec_digits). exact B3.
Qed.

Lemma wp_check_connection : forall (U : Prop) cv d (Q : _ -> Prop), parsed (lbuf d) -> ~ In NUL cv -> length cv <= 61 ->
  (prefixb (bs "+CIPRXGET: 1,0") (lbuf d) = true -> Q (on_data true d)) ->
  (prefixb (bs "+CIPRXGET: 1,0") (lbuf d) = false -> prefixb cv (lbuf d) = true -> Q (on_ip false (set_wait None d))) ->
  (prefixb (bs "+CIPRXGET: 1,0") (lbuf d) = false -> prefixb cv (lbuf d) = false -> Q d) ->
  wp U (sim_check_connection cv d) Q.
Proof.
  intros U cv d Q [Hlen Hnul] Hc Hl HQ1 HQ2 HQ3. unfold sim_check_connection.
  rewrite lstarts_eq by (rewrite ?Hlen; cbn; lia || lfree). cbn [bind].
  destruct (prefixb (bs "+CIPRXGET: 1,0") (lbuf d)) eqn:E1; [cbn [wp]; auto|].
  rewrite lstarts_eq by (rewrite ?Hlen; auto). cbn [bind].
  destruct (prefixb cv (lbuf d)) eqn:E2; cbn [wp]; auto.
Qed.

(** The command of a pending ID request. *)
Definition id_request (icc : bytes) (b : bytes) : option bytes :=
  match nth_error b 1 with
  | Some t => match id_of_code t with Some ty => id_command icc ty | None => None end
  | None => None
  end.
Lemma wp_send_id : forall (U : Prop) icc d (Q : _ -> Prop), swf d -> length (idbuf (ext d)) = 24 ->
  Q (false, d) ->
  (nth_error (idbuf (ext d)) 1 <> Some (id_code idNone) -> nth_error (idbuf (ext d)) 0 = Some NUL -> fLine (fl d) = true ->
     id_request icc (idbuf (ext d)) = None ->
     Q (false, set_x_idbuf (list_set (idbuf (ext d)) 1 (id_code idNone)) d)) ->
  (forall cmd y, id_request icc (idbuf (ext d)) = Some cmd -> nth_error (idbuf (ext d)) 0 = Some NUL -> fLine (fl d) = true ->
     wroteb (io d) y (cbody cmd ++ lineEndStr) ->
     Q (true, set_io y (set_x_idbuf (list_set (idbuf (ext d)) 1 (id_code idNone)) d))) ->
  wp U (sim_send_id icc d) Q.
Proof.
  intros U icc d Q H Hid HQ1 HQ2 HQ3. unfold sim_send_id.
  destruct (rd_ok' _ (idbuf (ext d)) 1 ltac:(lia)) as (t & Et & Hn1). rewrite Et. cbn [bind].
  destruct (rd_ok' _ (idbuf (ext d)) 0 ltac:(lia)) as (c & Ec & Hn0). rewrite Ec. cbn [bind].
  unfold id_request in HQ2, HQ3. rewrite Hn1 in HQ2, HQ3.
  destruct (negb (aeqb t (id_code idNone)) && aeqb c NUL && fLine (fl d)) eqn:E; [|cbn [wp]; assumption].
  apply andb_prop in E as [E Ef]. apply andb_prop in E as [E1 E2]. unfold aeqb in E1, E2.
  apply negb_true_iff in E1. apply Ascii.eqb_neq in E1. apply Ascii.eqb_eq in E2. subst c.
  assert (Hne : Some t <> Some (id_code idNone)) by (intro HH; injection HH as ->; congruence).
  rewrite wr_ok by lia. cbn [bind].
  destruct (id_of_code t) as [ty|]; [|cbn [wp]; apply HQ2; auto].
  destruct (id_command icc ty) as [cmd|]; [|cbn [wp]; apply HQ2; auto].
  apply wp_bind. apply wp_send_command; [exact H|]. intros y B. cbn [wp]. apply (HQ3 cmd y); auto.
Qed.

Lemma wp_sim_reset_states : forall (U : Prop) s0 r0 d (Q : _ -> Prop), swf d -> length (idbuf (ext d)) = 24 ->
  (forall y ev, sstep (io d) y ev -> clean ev -> taken ev = [] -> put ev = [] -> rxav y = 0 -> txav y <= txav (io d) ->
     (forall q, rx_replay ev q = Some []) -> lring_is (srx (ser y)) [] ->
     Q (mkDev y (isopen d) (ring_flush (rbuf d)) (ring_flush (wbuf d)) (typ d) (host d) (port d) flags_line_read
          csNotConnected None (lbuf d) 0 s0 r0 0%Z 0%Z 0%Z 99%Z (tsk d)
          (set_idbuf (list_set (list_set (idbuf (ext d)) 0 NUL) 1 (id_code idNone)) (ext d)))) ->
  wp U (sim_reset_states s0 r0 d) Q.
Proof.
  intros U s0 r0 d Q H Hid HQ. unfold sim_reset_states. apply wp_bind. apply wp_reset_states; [assumption|].
  intros y ev A1 A2 A3 A4 A5 A6 A7 A8. dsimp. rewrite wr_ok by lia. cbn [bind]. rewrite wr_ok by (rewrite list_set_length; lia).
  cbn [bind wp]. unfold set_x_idbuf. dsimp. eapply HQ; eauto.
Qed.

End Rules.
