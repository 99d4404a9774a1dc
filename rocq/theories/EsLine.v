(** What single reply lines of the Espressif driver do. *)
From Coq Require Import String Ascii ZArith List Bool Arith Lia ZifyBool ZifyNat.
From Verif Require Import Base QueueSpec LineSpec SerialSpec Ring RingProofs LineRing LineRingProofs Serial SerialProofs
  SerStep TaskMacros CStr CStrProofs Dev DevProofs SimDev SimProofs SimSpec SimParse SimLog Sym DrvStep DrvCommon DrvRun DrvHist
  Espressif EsSpec EsFill EsProofs EsCtl EsCtlIn EsRun AtLine EsHist EsThms EsMore.
Import ListNotations.
Local Open Scope nat_scope.
Ltac Zify.zify_post_hook ::= Z.div_mod_to_equations.
Local Notation dv := (dev essend esreply espx).
Local Notation ent := (@entry esop).

(** The reply to AT+CIPRECVDATA: its header, read up to the separator. *)
Definition se_data (r : esreply) (L : bytes) : bool := negb (at_end (last L NUL) (length L)) && se_header r L.
(** A line taken as MAC address, and as signal strength. *)
Definition se_takes_mac (d : dv) (L : bytes) : bool := match rst d with REReqMac => prefixb mac_lit L | _ => false end.
Definition se_takes_rssi (d : dv) (L : bytes) : bool :=
  match rst d with RERssi => prefixb (bs "+CWJAP:") L || prefixb (bs "No AP") L | _ => false end.
Definition se_nosend (d : dv) (L : bytes) : bool := se_is_connected (sst d) && prefixb (bs "SEND FAIL") L.
(** The address: what follows the opening quote, up to the closing one, at most
    17 characters. *)
Definition se_mac_text (L : bytes) : bytes := firstn 17 (upto DQ (cbody (skipn 12 L))).
(** The text behind the [n]-th comma. *)
Fixpoint behind_commas (n : nat) (s : bytes) : option bytes :=
  match s with
  | [] => None
  | c :: t => if Ascii.eqb c NUL then None
              else if Ascii.eqb c "," then match n with S (S m) => behind_commas (S m) t | _ => Some t end
              else behind_commas n t
  end.
(** The reported signal strength: behind the third comma of the reply; a reply
    with fewer commas changes nothing. *)
Definition se_rssi_text (P : plat) (L : bytes) (old : Z) : Z :=
  if prefixb (bs "+CWJAP:") L then
    match behind_commas 3 (skipn 7 L) with Some t => i16 (number P t) | None => old end
  else 99%Z.

(** The state after the line [L]. *)
Definition se_effect (P : plat) (L : bytes) (d d' : dv) : Prop :=
  ssid (ext d') = ssid (ext d) /\ passwd (ext d') = passwd (ext d) /\
  if se_is_error L then
    rssi d' = rssi d /\ emac (ext d') = emac (ext d) /\ rst d' = rst d /\ sst d' = sst d /\ toReceive d' = toReceive d /\ toRead d' = toRead d /\
    fLine (fl d') = fLine (fl d) /\
    fData (fl d') = fData (fl d) /\ fIp (fl d') = fIp (fl d) /\ wait d' = None /\ fReset (fl d') = true /\ cst d' = csGeneralError
  else
    let v := i32 (number P (skipn 13 L)) in
    let n := i32 (number P (skipn 5 L)) in
    let dat := se_data (rst d) L in
    let up := 10 <=? se_rank (sst d) in
    let ipd := up && prefixb (bs "+IPD") L in
    let lost := up && prefixb (bs "WIFI DISCONNECT") L in
    let tcp := (typ d =? TCP)%Z in
    sst d' = (if dat then SEReceiving else if lost then SEFinalizeDisconnect else sst d) /\
    rst d' = (if dat || se_takes_rssi d L || se_takes_mac d L then REOk else rst d) /\
    rssi d' = (if se_takes_rssi d L then se_rssi_text P L (rssi d) else rssi d) /\
    (if se_takes_mac d L then str_body (emac (ext d')) = se_mac_text L else emac (ext d') = emac (ext d)) /\
    toRead d' = (if dat then u64 (toRead d + v) else if ipd && negb tcp then u64 (toRead d + n) else toRead d) /\
    toReceive d' = (if dat then u64 (toReceive d - v) else if ipd && tcp then u64 n else toReceive d) /\
    fLine (fl d') = (if dat || ipd && negb tcp then false else fLine (fl d)) /\
    fData (fl d') = (if ipd then true else fData (fl d)) /\
    fIp (fl d') = (if up && prefixb (bs "CLOSED") L then false else fIp (fl d)) /\
    wait d' = (if se_nosend d L || lost then None else match wait d with Some w => if prefixb w L then None else wait d | None => None end) /\
    fReset (fl d') = fReset (fl d) /\ cst d' = (if se_nosend d L then csGeneralError else cst d).

Lemma se_stored_quoted : forall s n r t, str_body (firstn n (upto DQ (s ++ NUL :: r)) ++ NUL :: t) = firstn n (upto DQ (cbody s)).
Proof.
  induction s as [|c s IH]; intros n r t.
  - cbn [app upto]. change (Ascii.eqb NUL DQ) with false. cbn iota. destruct n; reflexivity.
  - unfold cbody. cbn [app upto str_body]. destruct (Ascii.eqb c NUL) eqn:En.
    + apply Ascii.eqb_eq in En. subst c. change (Ascii.eqb NUL DQ) with false. change (Ascii.eqb NUL "000"%char) with true. cbn iota.
      destruct n; reflexivity.
    + change (Ascii.eqb c "000"%char) with (Ascii.eqb c NUL). rewrite En. cbn iota. cbn [upto]. destruct (Ascii.eqb c DQ); [destruct n; reflexivity|].
      destruct n; [reflexivity|]. cbn [firstn app str_body]. change (Ascii.eqb c "000"%char) with (Ascii.eqb c NUL). rewrite En. f_equal. apply IH.
Qed.

Lemma se_prefix_clash : forall a b L, prefixb a L = true -> prefixb b a = false -> prefixb a b = false -> prefixb b L = false.
Proof.
  induction a as [|x a IH]; intros b L H H1 H2; [destruct b; discriminate|].
  destruct L as [|y L]; [discriminate|]. cbn [prefixb] in H. apply andb_true_iff in H as [H0 H]. unfold aeqb in *. apply Ascii.eqb_eq in H0. subst y.
  destruct b as [|z b]; [discriminate|]. cbn [prefixb] in *. unfold aeqb in *. rewrite (Ascii.eqb_sym x z) in H2. destruct (Ascii.eqb z x) eqn:E; [|reflexivity].
  cbn [andb] in *. apply (IH b L); assumption.
Qed.

Lemma after_commas_at : forall s r n, after_commas n (s ++ NUL :: r) = Ok (match behind_commas n s with Some t => Some (t ++ NUL :: r) | None => None end).
Proof.
  induction s as [|c s IH]; intros r n.
  - cbn [app after_commas]. unfold aeqb. change (Ascii.eqb NUL NUL) with true. reflexivity.
  - cbn [app after_commas behind_commas]. unfold aeqb. destruct (Ascii.eqb c NUL); [reflexivity|]. destruct (Ascii.eqb c ","); [|apply IH].
    destruct n as [|[|n]]; try reflexivity. apply IH.
Qed.

Lemma skip_text : forall (L r : bytes) n, n <= length L -> skipn n (L ++ NUL :: r) = skipn n L ++ NUL :: r.
Proof. intros L r n H. rewrite skipn_app. replace (n - length L) with 0 by lia. reflexivity. Qed.

Section OneLine.
Variables (P : plat) (L r : bytes).
Hypothesis Hlen : length (L ++ NUL :: r) = 61.
Hypothesis Hipd : prefixb (bs "+IPD") L = true -> 5 <= length L.
Hypothesis Hdat : prefixb (bs "+CIPRECVDATA") L = true -> 13 <= length L.

(** The steps of the handling of a line as functions. *)
Definition st_standard (d : dv) : dv := set_wait (match wait d with Some w => if prefixb w L then None else wait d | None => None end) d.
Definition st_special (d : dv) : dv :=
  match rst d with
  | REParseCiprecvdata =>
      if prefixb (bs "+CIPRECVDATA") L then
        let v := i32 (number P (skipn 13 L)) in
        set_sst SEReceiving (set_rst REOk (on_line false (set_toRead (u64 (toRead d + v)) (set_toReceive (u64 (toReceive d - v)) d))))
      else d
  | REReqMac => if prefixb mac_lit L then set_rst REOk (set_emac (mac_copy (L ++ NUL :: r) (emac (ext d))) d) else d
  | RERssi =>
      if prefixb (bs "+CWJAP:") L then
        match behind_commas 3 (skipn 7 L) with Some t => set_rst REOk (set_rssi (i16 (number P t)) d) | None => set_rst REOk d end
      else if prefixb (bs "No AP") L then set_rst REOk (set_rssi 99%Z d) else d
  | REOk | REWaitCiprecvdata => d
  end.
Definition st_unsol (d : dv) : dv :=
  if prefixb (bs "+IPD") L then
    let n := i32 (number P (skipn 5 L)) in
    on_data true (if (typ d =? TCP)%Z then set_toReceive (u64 n) d else on_line false (set_toRead (u64 (toRead d + n)) d))
  else if prefixb (bs "CLOSED") L then on_ip false d
  else if prefixb (bs "WIFI DISCONNECT") L then set_wait None (set_sst SEFinalizeDisconnect d) else d.

Lemma standard_at : forall d, lbuf d = L ++ NUL :: r -> (match wait d with Some w => nulfree w = true /\ length w <= 61 | None => True end) ->
  se_standard_reply d = Ok (st_standard d).
Proof.
  intros d HL Hw. unfold se_standard_reply, st_standard. destruct (wait d) as [w|] eqn:Ew.
  - destruct Hw as [H1 H2]. rewrite (lmatch_at L r d HL Hlen) by assumption. cbn [bind]. destruct (prefixb w L); [reflexivity|]. rewrite <- Ew. destruct d; reflexivity.
  - f_equal. rewrite <- Ew. destruct d; reflexivity.
Qed.

Lemma special_at : forall d, lbuf d = L ++ NUL :: r -> length (emac (ext d)) = 18 -> se_special_reply P d = Ok (st_special d).
Proof.
  intros d HL Hm. unfold se_special_reply, st_special. destruct (rst d); try reflexivity.
  - unfold se_parse_ciprecvdata. rewrite (lstarts_at L r d HL Hlen) by (reflexivity || (cbn; lia)). cbn [bind].
    destruct (prefixb (bs "+CIPRECVDATA") L) eqn:E; [|reflexivity]. rewrite HL, skip_text by auto. rewrite strtol_line. reflexivity.
  - rewrite (lstarts_at L r d HL Hlen) by (reflexivity || (cbn; lia)). cbn [bind]. fold mac_lit. destruct (prefixb mac_lit L) eqn:E; [|reflexivity].
    rewrite HL.
    assert (Hp : parsed (L ++ NUL :: r)) by (split; [exact Hlen|apply in_or_app; right; left; reflexivity]).
    pose proof (wp_se_mac False (L ++ NUL :: r) (emac (ext d)) (fun b => set_rst REOk (set_emac b d)) (fun x => x = set_rst REOk (set_emac (mac_copy (L ++ NUL :: r) (emac (ext d))) d)) Hp Hm eq_refl) as H.
    destruct (copy_until _ _ _) as [s|]; cbn [bind wp] in *; [|contradiction]. destruct (wr_list _ _ _) as [b|]; cbn [bind wp] in *; [|contradiction]. rewrite H. reflexivity.
  - rewrite !(lstarts_at L r d HL Hlen) by (reflexivity || (cbn; lia)). cbn [bind].
    destruct (prefixb (bs "+CWJAP:") L) eqn:E.
    + rewrite HL, skip_text by (apply prefixb_spec in E as [u ->]; rewrite app_length; cbn; lia). rewrite after_commas_at. cbn [bind].
      destruct (behind_commas 3 (skipn 7 L)) as [t|]; [|reflexivity]. rewrite strtol_line. reflexivity.
    + destruct (prefixb (bs "No AP") L); reflexivity.
Qed.

Lemma unsol_at : forall d, lbuf d = L ++ NUL :: r -> se_unsolicited P d = Ok (st_unsol d).
Proof.
  intros d HL. unfold se_unsolicited, st_unsol. assert (Em : lmatch 4 (bs "+IPD,") d = Ok (prefixb (bs "+IPD") L)).
  { rewrite lmatch_eq by first [apply nulfree_ok; reflexivity | (rewrite ?HL, ?Hlen; cbn; lia)].
    change (firstn 4 (bs "+IPD,")) with (bs "+IPD"). rewrite HL, prefixb_line by (apply nulfree_ok; reflexivity). reflexivity. }
  rewrite Em. cbn [bind]. destruct (prefixb (bs "+IPD") L) eqn:E.
  - rewrite HL. rewrite (skip_text L r 5 (Hipd eq_refl)). rewrite strtol_line. reflexivity.
  - rewrite !(lstarts_at L r d HL Hlen) by (reflexivity || (cbn; lia)). cbn [bind]. destruct (prefixb (bs "CLOSED") L); [reflexivity|].
    destruct (prefixb (bs "WIFI DISCONNECT") L); reflexivity.
Qed.

Definition st_line (d : dv) : dv :=
  if se_is_error L then set_wait None (set_cst csGeneralError (on_reset true d))
  else let d2 := st_special (st_standard (if se_nosend d L then set_wait None (set_cst csGeneralError d) else d)) in
       if 10 <=? se_rank (sst d2) then st_unsol d2 else d2.

Lemma st_special_lbuf : forall d, lbuf (st_special d) = lbuf d.
Proof.
  intro d. unfold st_special. clear Hipd Hdat Hlen. destruct (rst d); try reflexivity.
  - destruct (prefixb (bs "+CIPRECVDATA") L); reflexivity.
  - destruct (prefixb mac_lit L); reflexivity.
  - destruct (prefixb (bs "+CWJAP:") L); [destruct (behind_commas 3 (skipn 7 L)); reflexivity|]. destruct (prefixb (bs "No AP") L); reflexivity.
Qed.

Lemma parse_at : forall d, lbuf d = L ++ NUL :: r -> se_inv d -> se_parse P d = Ok (se_is_error L, st_line d).
Proof.
  intros d HL HI. pose proof HI as ((_ & _ & _ & _ & _ & _ & _ & _ & _ & Hwt & _) & Hcm).
  assert (Hp : parsed (lbuf d)) by (rewrite HL; split; [exact Hlen|apply in_or_app; right; left; reflexivity]).
  rewrite (se_parse_eq P d Hp). unfold st_line.
  assert (Ee : se_is_error (lbuf d) = se_is_error L) by (unfold se_is_error; rewrite HL, !prefixb_line by lfree; reflexivity).
  assert (En : se_noerr d = if se_nosend d L then set_wait None (set_cst csGeneralError d) else d) by (unfold se_noerr, se_nosend; rewrite HL, prefixb_line by lfree; reflexivity).
  rewrite Ee, En. destruct (se_is_error L); [reflexivity|]. clear Ee En.
  set (d0 := if se_nosend d L then _ else d).
  assert (H0 : lbuf d0 = L ++ NUL :: r) by (unfold d0; destruct (se_nosend d L); exact HL).
  assert (M0 : length (emac (ext d0)) = 18) by (unfold d0; destruct (se_nosend d L); exact Hcm).
  assert (W0 : match wait d0 with Some w => nulfree w = true /\ length w <= 61 | None => True end).
  { unfold d0. destruct (se_nosend d L); [exact I|]. destruct (wait d); [|exact I]. destruct Hwt as [Hw1 Hw2]. split; [apply nulfree_of; assumption|lia]. }
  rewrite (standard_at d0 H0 W0). cbn [bind]. rewrite (special_at (st_standard d0) H0 M0). cbn [bind]. change (se_rank SEConnected) with 10.
  cbv zeta. match goal with |- context [if ?b then _ else _] => destruct b end; [|reflexivity]. rewrite unsol_at; [reflexivity|]. rewrite st_special_lbuf. exact H0.
Qed.
End OneLine.

Lemma se_line_long : forall d L, se_whole d L ->
  (prefixb (bs "+IPD") L = true -> 5 <= length L) /\ (prefixb (bs "+CIPRECVDATA") L = true -> 13 <= length L).
Proof.
  intros d L (body & e & E & _ & _ & _ & He).
  assert (H : forall lit c, forallb (fun x => negb (Ascii.eqb c x)) [LF; GT; ":"%char; ","%char] = true -> S (length lit) < 60 ->
    prefixb (lit ++ [c]) L = true -> S (S (length lit)) <= length L).
  { intros lit c Hc Hl Hp. apply prefixb_spec in Hp as [u Ht]. rewrite Ht, !app_length. cbn [length].
    destruct u as [|x u]; [|cbn [length]; lia]. exfalso. rewrite app_nil_r in Ht. rewrite Ht in E. apply app_inj_tail in E as [_ E]. subst e.
    unfold se_ends, at_end, se_colon, se_header, aeqb in He. rewrite Ht, last_snoc, app_length in He. cbn [length] in He.
    cbn [forallb] in Hc. repeat (apply andb_true_iff in Hc as [?Hc Hc]).
    repeat match goal with X : negb _ = true |- _ => apply negb_true_iff in X; rewrite X in He end.
    rewrite !andb_false_r in He. cbn [andb orb] in He. rewrite ?andb_false_r, ?orb_false_r, ?orb_false_l in He. revert He. unfold LINE_MAX_LENGTH. lia. }
  split; [apply (H (bs "+IP") "D"%char)|apply (H (bs "+CIPRECVDAT") "A"%char)]; first [reflexivity | cbn; lia].
Qed.

Lemma unsol_fields : forall P L z x, x = (if 10 <=? se_rank (sst z) then st_unsol P L z else z) ->
  let up := 10 <=? se_rank (sst z) in
  let n := i32 (number P (skipn 5 L)) in
  let ipd := up && prefixb (bs "+IPD") L in
  let lost := up && prefixb (bs "WIFI DISCONNECT") L in
  let tcp := (typ z =? TCP)%Z in
  ext x = ext z /\ sst x = (if lost then SEFinalizeDisconnect else sst z) /\ rst x = rst z /\ rssi x = rssi z /\
  toRead x = (if ipd && negb tcp then u64 (toRead z + n) else toRead z) /\
  toReceive x = (if ipd && tcp then u64 n else toReceive z) /\
  fLine (fl x) = (if ipd && negb tcp then false else fLine (fl z)) /\
  fData (fl x) = (if ipd then true else fData (fl z)) /\
  fIp (fl x) = (if up && prefixb (bs "CLOSED") L then false else fIp (fl z)) /\
  wait x = (if lost then None else wait z) /\ fReset (fl x) = fReset (fl z) /\ cst x = cst z.
Proof.
  intros P L z x ->. cbv zeta.
  assert (K1 : prefixb (bs "+IPD") L = true -> prefixb (bs "CLOSED") L = false /\ prefixb (bs "WIFI DISCONNECT") L = false)
    by (intro H; split; apply (se_prefix_clash (bs "+IPD") _ L H); reflexivity).
  assert (K2 : prefixb (bs "CLOSED") L = true -> prefixb (bs "WIFI DISCONNECT") L = false)
    by (intro H; apply (se_prefix_clash (bs "CLOSED") _ L H); reflexivity).
  destruct (10 <=? se_rank (sst z)) eqn:Eu; cbn [andb]; [|splits; reflexivity].
  unfold st_unsol. destruct (prefixb (bs "+IPD") L); [destruct (K1 eq_refl) as [-> ->]; cbn [andb]; destruct (typ z =? TCP)%Z; splits; reflexivity|]. cbn [andb].
  destruct (prefixb (bs "CLOSED") L); [rewrite (K2 eq_refl); splits; reflexivity|].
  destruct (prefixb (bs "WIFI DISCONNECT") L); splits; reflexivity.
Qed.

Lemma ok_eq : forall A (x y : A), Ok x = Ok y -> x = y.
Proof. intros A x y H. inversion H. reflexivity. Qed.

Theorem se_line_effect : forall P d ret d' L, rst d <> REParseCiprecvdata -> se_whole d L -> se_handles P d ret d' L ->
  se_effect P L d d' /\ ret = se_is_error L.
Proof.
  intros P d ret d' L Hr Hw (r & y & Hlen & _ & HI & Hp). destruct (se_line_long d L Hw) as [H5 H13].
  rewrite (parse_at P L r Hlen H5 H13 (line_at L r y (se_took L d)) eq_refl HI) in Hp.
  apply ok_eq in Hp. apply pair_equal_spec in Hp as [<- <-]. split; [|reflexivity].
  assert (Hd : se_took L d = if se_data (rst d) L then set_rst REParseCiprecvdata d else d).
  { unfold se_took, se_data. destruct Hw as (_ & _ & _ & _ & _ & _ & He). unfold se_ends in He. destruct (at_end _ _); [reflexivity|]. cbn [orb negb andb] in *.
    destruct (se_colon _ _ L) eqn:Ec; cbn [orb] in *; [|rewrite He; reflexivity]. replace (se_header (rst d) L) with false; [reflexivity|].
    unfold se_colon in Ec. unfold se_header. destruct (rst d); try reflexivity. rewrite andb_false_r in Ec. discriminate Ec. }
  assert (Hx : se_data (rst d) L = true -> rst d = REWaitCiprecvdata /\ prefixb (bs "+CIPRECVDATA") L = true).
  { unfold se_data. intro H. apply andb_true_iff in H as [_ H]. split; [|exact (se_header_prefix _ _ H)]. unfold se_header in H. destruct (rst d); try discriminate H. reflexivity. }
  rewrite Hd. unfold se_effect, st_line. destruct (se_data (rst d) L) eqn:Ed.
  - destruct (Hx eq_refl) as [Ew Ep]. clear Hx Hd. pose proof (fun b => se_prefix_clash (bs "+CIPRECVDATA") b L Ep) as X.
    assert (Ee : se_is_error L = false) by (unfold se_is_error; rewrite !X by reflexivity; reflexivity).
    rewrite Ee. unfold se_takes_mac, se_takes_rssi, se_nosend. rewrite !Ew. rewrite !X by reflexivity. rewrite !andb_false_r. cbv zeta.
    set (x := st_standard L _). assert (Er : rst x = REParseCiprecvdata) by reflexivity.
    unfold st_special. rewrite Er, Ep. set (z := set_sst SEReceiving _). change (10 <=? se_rank (sst z)) with true. cbn iota.
    unfold st_unsol. rewrite !X by reflexivity. cbn [andb orb negb]. splits; try reflexivity.
  - clear Hx Hd. destruct (se_is_error L); [splits; reflexivity|].
    assert (Em : prefixb mac_lit L = true -> str_body (mac_copy (L ++ NUL :: r) (emac (ext d))) = se_mac_text L).
    { intro H. unfold mac_copy. cbv zeta. rewrite skip_text by (apply prefixb_spec in H as [u ->]; rewrite app_length; cbn; lia). apply se_stored_quoted. }
    cbv zeta. unfold se_takes_mac, se_takes_rssi, se_rssi_text.
    set (x0 := if se_nosend (line_at L r y d) L then _ else _).
    assert (X : st_standard L x0 = set_wait (if se_nosend d L then None else match wait d with Some w => if prefixb w L then None else wait d | None => None end)
      (set_cst (if se_nosend d L then csGeneralError else cst d) (line_at L r y d))).
    { unfold x0. change (se_nosend (line_at L r y d) L) with (se_nosend d L). destruct (se_nosend d L); reflexivity. }
    rewrite X. clear X x0. set (w := if se_nosend d L then None else _). set (c := if se_nosend d L then csGeneralError else _).
    assert (Hwt : (if se_nosend d L || (10 <=? se_rank (sst d)) && prefixb (bs "WIFI DISCONNECT") L then None
      else match wait d with Some w => if prefixb w L then None else wait d | None => None end) = if (10 <=? se_rank (sst d)) && prefixb (bs "WIFI DISCONNECT") L then None else w).
    { unfold w. destruct (se_nosend d L); cbn [orb]; [|reflexivity]. destruct (_ && _); reflexivity. }
    rewrite Hwt. clearbody w c. clear Hwt. 
    set (z := set_wait w (set_cst c (line_at L r y d))). change (rst d) with (rst z). change (sst d) with (sst z).
    assert (F : forall z', sst z' = sst z -> typ z' = typ d -> wait z' = w -> cst z' = c -> fl z' = fl d -> toRead z' = toRead d -> toReceive z' = toReceive d ->
      ssid (ext z') = ssid (ext d) -> passwd (ext z') = passwd (ext d) ->
      forall (bm br : bool) rs, rst z' = (if false || br || bm then REOk else rst z) -> rssi z' = (if br then rs else rssi d) ->
      (if bm then str_body (emac (ext z')) = se_mac_text L else emac (ext z') = emac (ext d)) ->
      forall x, x = (if 10 <=? se_rank (sst z') then st_unsol P L z' else z') ->
      ssid (ext x) = ssid (ext d) /\ passwd (ext x) = passwd (ext d) /\
      sst x = (if (10 <=? se_rank (sst z)) && prefixb (bs "WIFI DISCONNECT") L then SEFinalizeDisconnect else sst z) /\
      rst x = (if false || br || bm then REOk else rst z) /\ rssi x = (if br then rs else rssi d) /\
      (if bm then str_body (emac (ext x)) = se_mac_text L else emac (ext x) = emac (ext d)) /\
      toRead x = (if (10 <=? se_rank (sst z)) && prefixb (bs "+IPD") L && negb (typ d =? TCP)%Z then u64 (toRead d + i32 (number P (skipn 5 L))) else toRead d) /\
      toReceive x = (if (10 <=? se_rank (sst z)) && prefixb (bs "+IPD") L && (typ d =? TCP)%Z then u64 (i32 (number P (skipn 5 L))) else toReceive d) /\
      fLine (fl x) = (if false || (10 <=? se_rank (sst z)) && prefixb (bs "+IPD") L && negb (typ d =? TCP)%Z then false else fLine (fl d)) /\
      fData (fl x) = (if (10 <=? se_rank (sst z)) && prefixb (bs "+IPD") L then true else fData (fl d)) /\
      fIp (fl x) = (if (10 <=? se_rank (sst z)) && prefixb (bs "CLOSED") L then false else fIp (fl d)) /\
      wait x = (if (10 <=? se_rank (sst z)) && prefixb (bs "WIFI DISCONNECT") L then None else w) /\
      fReset (fl x) = fReset (fl d) /\ cst x = c).
    { intros z' A1 A2 A3 A4 A5 A6 A7 A8 A9 bm br rs B1 B2 B3 x Ex.
      destruct (unsol_fields P L z' x Ex) as (C1 & C2 & C3 & C4 & C5 & C6 & C7 & C8 & C9 & C10 & C11 & C12). clear Ex.
      rewrite C1, C2, C3, C4, C5, C6, C7, C8, C9, C10, C11, C12, A1, A2, A3, A4, A5, A6, A7. splits; assumption || reflexivity. }
    unfold st_special. change (fLine (fl d)) with (fLine (fl z)). destruct (rst z) eqn:Erz; try (exfalso; apply Hr; exact Erz).
    + refine (F z _ _ _ _ _ _ _ _ _ false false 0%Z _ _ _ _ eq_refl); reflexivity || exact Erz.
    + refine (F z _ _ _ _ _ _ _ _ _ false false 0%Z _ _ _ _ eq_refl); reflexivity || exact Erz.
    + destruct (prefixb mac_lit L) eqn:El.
      * refine (F _ _ _ _ _ _ _ _ _ _ true false 0%Z _ _ _ _ eq_refl); try reflexivity. exact (Em eq_refl).
      * refine (F z _ _ _ _ _ _ _ _ _ false false 0%Z _ _ _ _ eq_refl); reflexivity || exact Erz.
    + destruct (prefixb (bs "+CWJAP:") L); [destruct (behind_commas 3 (skipn 7 L)) as [t|]|destruct (prefixb (bs "No AP") L)]; cbn [orb].
      * refine (F _ _ _ _ _ _ _ _ _ _ false true _ _ _ _ _ eq_refl); reflexivity.
      * refine (F _ _ _ _ _ _ _ _ _ _ false true _ _ _ _ _ eq_refl); reflexivity.
      * refine (F _ _ _ _ _ _ _ _ _ _ false true _ _ _ _ _ eq_refl); reflexivity.
      * refine (F z _ _ _ _ _ _ _ _ _ false false 0%Z _ _ _ _ eq_refl); reflexivity || exact Erz.
Qed.
