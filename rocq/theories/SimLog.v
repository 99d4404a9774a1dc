(** What a history of a SIMCom driver says about signal strength, resolved
    address and identification.  These readings use only the calls and the
    commands and reply lines that went over the wire. *)
From Coq Require Import String Ascii ZArith List Bool Arith Lia ZifyBool ZifyNat.
From Verif Require Import Base QueueSpec SerialSpec Ring RingProofs LineRing LineRingProofs Serial SerialProofs SerStep CStr CStrProofs Dev DevProofs SimDev SimProofs SimParse DrvStep DrvRun DrvHist.
Import ListNotations.
Local Open Scope nat_scope.
Local Notation ent := (@entry simop).

Definition same (a b : bytes) : bool := if list_eq_dec ascii_dec a b then true else false.
Lemma same_true : forall a b, same a b = true <-> a = b.
Proof. intros a b. unfold same. destruct (list_eq_dec ascii_dec a b); split; congruence. Qed.

(** ** Signal strength *)

(** The value getRSSI() is to return, and whether an AT+CSQ is unanswered. *)
Definition rssi_act (P : plat) (acc : Z * bool) (a : act) : Z * bool :=
  match a with
  | aCommand cmd _ => (fst acc, same cmd (bs "AT+CSQ" ++ [CR; LF]))
  | aLine _ L => if snd acc && prefixb (bs "+CSQ: ") L then (csq_dbm (number P (skipn 6 L)), false) else acc
  | aReset _ => (fst acc, false)
  | _ => acc
  end.
Definition rssi_call (acc : Z * bool) (e : ent) : Z * bool :=
  match e_op e with OpRequestRSSI => (INT16_MAX, snd acc) | OpResetStates => (99%Z, false) | _ => acc end.
Definition rssi_log (P : plat) (tr : list ent) : Z * bool := fold_left (reading (rssi_act P) rssi_call) tr (99%Z, false).

(** ** Resolved address *)

Definition dns_ok (L : bytes) : Prop := prefixb (bs "+CDNSGIP: 1") L = true /\ 4 <= quotes (cbody L) <= 10.
Definition dns_okb (L : bytes) : bool := prefixb (bs "+CDNSGIP: 1") L && (4 <=? quotes (cbody L)) && (quotes (cbody L) <=? 10).
Lemma dns_okb_spec : forall L, dns_okb L = true <-> dns_ok L.
Proof. intro L. unfold dns_okb, dns_ok. rewrite !andb_true_iff, !Nat.leb_le. tauto. Qed.

(** The address most recently resolved, and whether an AT+CDNSGIP is unanswered. *)
Definition dns_act (acc : option bytes * bool) (a : act) : option bytes * bool :=
  match a with
  | aCommand cmd _ => (fst acc, prefixb (bs "AT+CDNSGIP=") cmd)
  | aLine _ L => if snd acc && dns_okb L then (dns_ip (cbody L), false) else acc
  | aReset _ => (fst acc, false)
  | _ => acc
  end.
Definition dns_log (tr : list ent) : option bytes * bool := fold_left (act_log dns_act (fun acc => (fst acc, false))) tr (None, false).

(** ** Identification *)

(** The last requestIDString(), the lines received since, and whether any line
    at all contained a NUL character. *)
Record idlog := mkIdlog { il_req : option idtype; il_lines : list bytes; il_nul : bool }.
Definition id_act (acc : idlog) (a : act) : idlog :=
  match a with
  | aLine _ L => mkIdlog (il_req acc) (il_lines acc ++ [L]) (il_nul acc || negb (nulfree L))
  | _ => acc
  end.
Definition id_call (acc : idlog) (e : ent) : idlog :=
  match e_op e with
  | OpX (RequestID t) => mkIdlog (Some t) [] false
  | OpResetStates => mkIdlog None [] false
  | _ => acc
  end.
Definition id_log (tr : list ent) : idlog := fold_left (reading id_act id_call) tr (mkIdlog None [] false).

(** The text stored for a request: what one of the lines says up to the CR, cut
    to 23 characters; for an ICCID request the line says a valid one. *)
Definition id_answer (acc : idlog) (text : bytes) : Prop :=
  exists t L s, il_req acc = Some t /\ In L (il_lines acc) /\ id_reply L = Some s /\ (t = idIccid -> iccid (leading_digits s)) /\
    text = firstn 23 (upto CR s).

(** Storing an answer without NUL characters. *)
Lemma nulfree_app : forall a b, nulfree (a ++ b) = nulfree a && nulfree b.
Proof. intros a b. apply forallb_app. Qed.
Lemma nulfree_skipn : forall n s, nulfree s = true -> nulfree (skipn n s) = true.
Proof. intros n s H. rewrite <- (firstn_skipn n s), nulfree_app in H. apply andb_true_iff in H. apply H. Qed.

Lemma id_reply_text : forall L s, whole_line L -> nulfree L = true -> id_reply L = Some s -> nulfree s = true /\ s <> [].
Proof.
  intros L s (body & c & E & He & _) Hn H. unfold id_reply in H. destruct (_ || _); [discriminate|].
  destruct (prefixb (bs "+ICCID: ") L) eqn:E1.
  - assert (s = skipn 8 L) by congruence. subst s. clear H. split; [apply nulfree_skipn; exact Hn|]. apply prefixb_spec in E1 as [t Et].
    destruct t as [|x t]; [|rewrite Et; discriminate]. exfalso. rewrite app_nil_r in Et.
    assert (Hc : c = " "%char) by (rewrite E in Et; apply (app_inj_tail body (bs "+ICCID:") c " "%char) in Et; apply Et).
    subst c. rewrite Et in He. discriminate He.
  - destruct (prefixb (bs "+") L); [discriminate|]. injection H as <-. split; [exact Hn|]. subst L. destruct body; discriminate.
Qed.

Lemma id_stored_first : forall s r b, nulfree s = true -> s <> [] ->
  let b' := firstn 23 (upto CR (s ++ NUL :: r)) ++ NUL :: skipn (S (length (firstn 23 (upto CR (s ++ NUL :: r))))) b in
  (prefixb [CR] s = true /\ b' = NUL :: skipn 1 b) \/ (nth_error b' 0 <> Some NUL /\ str_body b' = firstn 23 (upto CR s)).
Proof.
  intros s r b Hn Hs b'. assert (Hb : str_body b' = firstn 23 (upto CR s)).
  { unfold b'. rewrite stored_text, cbody_free by (apply nulfree_ok; exact Hn). reflexivity. }
  destruct s as [|c s]; [congruence|]. destruct (Ascii.eqb_spec c CR) as [->|Hc].
  - left. split; reflexivity.
  - right. split; [|exact Hb]. subst b'. cbn [app upto]. destruct (Ascii.eqb_spec c CR); [contradiction|].
    cbn [firstn app nth_error]. intro Ec. injection Ec as ->. discriminate Hn.
Qed.

(** ** Helpers *)
Lemma str_body_line : forall L r, str_body (L ++ NUL :: r) = cbody L.
Proof.
  unfold cbody. induction L as [|c L IH]; intro r; [reflexivity|]. cbn [app]. cbn [str_body]. rewrite (IH r). reflexivity.
Qed.

(** ** Locking *)
Definition unlocks (e : ent) : Prop := e_op e = OpX SerialUnlock \/ e_op e = OpResetStates.

Lemma sim_x_lock : forall SS RS (idle : RS -> bool) x (d d' : dev SS RS simx) out, sim_x idle x d = Ok (out, d') -> fLock (fl d) = true -> x <> SerialUnlock -> fLock (fl d') = true.
Proof.
  intros SS RS idle x d d' out E Hl Hx. destruct x; cbn [sim_x] in E.
  - inversion E; subst. exact Hl.
  - unfold sim_serial_lock in E. destruct (wait d); [inversion E; subst; exact Hl|]. destruct (idle (rst d)); inversion E; subst; auto.
  - congruence.
  - unfold sim_request_id in E.
    repeat match type of E with context [wr ?a ?b ?c] => destruct (wr a b c); cbn [bind] in E; [|discriminate] end.
    inversion E; subst. exact Hl.
  - destruct (sim_get_id d) as [s|] eqn:Eg; [|discriminate]. cbn [bind] in E. inversion E; subst. exact Hl.
Qed.

Lemma nulfree_of : forall s, ~ In NUL s -> nulfree s = true.
Proof.
  intros s H. unfold nulfree. apply forallb_forall. intros c Hc. destruct (Ascii.eqb_spec c NUL) as [->|]; [contradiction|reflexivity].
Qed.

Lemma pair_eq : forall {A B} (a a' : A) (b b' : B), (a, b) = (a', b') -> a = a' /\ b = b'.
Proof. intros A B a a' b b' H. split; [exact (f_equal fst H)|exact (f_equal snd H)]. Qed.

Lemma some_eq : forall A (a b : A), Some a = Some b -> a = b.
Proof. intros A a b H. congruence. Qed.

(** An acceptable identification. *)
Definition id_ok (L : bytes) (buf : bytes) (s : bytes) : Prop :=
  id_reply L = Some s /\ (nth_error buf 2 = Some (id_code idIccid) -> iccid (leading_digits s)).

Lemma nth_list_set_ne : forall (b : bytes) i j x, i <> j -> nth_error (list_set b i x) j = nth_error b j.
Proof. induction b as [|c b IH]; intros [|i] [|j] x H; cbn; try reflexivity; try congruence. apply IH. congruence. Qed.

Lemma nth_list_set_eq : forall (b : bytes) i x, i < length b -> nth_error (list_set b i x) i = Some x.
Proof. induction b as [|c b IH]; intros [|i] x H; cbn in *; try lia; auto. apply IH. lia. Qed.

(** ** Receiving *)

(** What the replies announce: the bytes waiting in the modem, those due on the
    line, and the reply expected. *)
Inductive rxask : Type := askNone | askCount | askData.
Record rxlog : Type := mkRx { rx_waiting : Z; rx_due : Z; rx_ask : rxask }.
Definition rx_act (P : plat) (acc : rxlog) (a : act) : rxlog :=
  match a with
  | aCommand cmd _ => mkRx (rx_waiting acc) (rx_due acc)
      (if same cmd (bs "AT+CIPRXGET=4,0" ++ [CR; LF]) then askCount else if prefixb (bs "AT+CIPRXGET=2,0,") cmd then askData else askNone)
  | aLine _ L =>
      match rx_ask acc with
      | askCount => if prefixb (bs "+CIPRXGET: 4,0,") L
                    then mkRx (u64 (rx_waiting acc + i32 (number P (skipn 15 L)))) (rx_due acc) askNone else acc
      | askData => if prefixb (bs "+CIPRXGET: 2,0,") L
                   then let k := i32 (number P (skipn 15 L)) in mkRx (u64 (rx_waiting acc - k)) (u64 (rx_due acc + k)) askNone else acc
      | askNone => acc
      end
  | aReceive _ => mkRx (rx_waiting acc) 0%Z askNone
  | aDiscard _ t2 => mkRx 0%Z (rx_due acc - Z.of_nat (length t2))%Z (rx_ask acc)
  | aReset _ => mkRx 0%Z 0%Z askNone
  | _ => acc
  end.
Definition rx_zero : rxlog := mkRx 0%Z 0%Z askNone.
Definition rx_log (P : plat) (tr : list ent) : rxlog := fold_left (act_log (rx_act P) (fun _ => rx_zero)) tr rx_zero.

(** The number in AT+CIPRXGET=2,0,n and in its reply. *)
Definition rx_req (P : plat) (cmd : bytes) : option Z :=
  if prefixb (bs "AT+CIPRXGET=2,0,") cmd then Some (number P (skipn 16 cmd)) else None.

Definition rx_rep (P : plat) (L : bytes) : option Z :=
  if prefixb (bs "+CIPRXGET: 2,0,") L then Some (i32 (number P (skipn 15 L))) else None.

Lemma rx_req_dec : forall P n, (0 <= n < 2147483648)%Z -> rx_req P (bs "AT+CIPRXGET=2,0," ++ dec n ++ [CR; LF]) = Some n.
Proof.
  intros P n H. unfold rx_req. change (skipn 16 (bs "AT+CIPRXGET=2,0," ++ dec n ++ [CR; LF])) with (dec n ++ [CR; LF]).
  rewrite number_dec by (try assumption; reflexivity). reflexivity.
Qed.

Lemma i32_lt : forall z, (i32 z < 2147483648)%Z.
Proof. intro z. unfold i32. pose proof (Z.mod_pos_bound (z + 2147483648) 4294967296 ltac:(lia)). lia. Qed.

Lemma quiet_trans : forall y1 y2 y3, quiet y1 y2 -> quiet y2 y3 -> quiet y1 y3.
Proof.
  intros y1 y2 y3 (e1 & A1 & A2 & A3 & A4) (e2 & B1 & B2 & B3 & B4). exists (e1 ++ e2). splits; try lia.
  - eapply sstep_trans; eassumption.
  - apply Forall_app. auto.
Qed.

Lemma rxav_le : forall y, serial_wf (ser y) -> rxav y <= rxsz y.
Proof. intros y [[(_ & H & _) _] _]. exact H. Qed.

Lemma no_id : forall SS RS icc (d : dev SS RS simx), nth_error (idbuf (ext d)) 1 = Some (id_code idNone) -> length (idbuf (ext d)) = 24 -> sim_send_id icc d = Ok (false, d).
Proof.
  intros SS RS icc d H Hl. unfold sim_send_id, rd. rewrite H. cbn [bind]. destruct (idbuf (ext d)); [discriminate Hl|]. cbn [nth_error bind].
  replace (aeqb (id_code idNone) (id_code idNone)) with true by reflexivity. reflexivity.
Qed.

Lemma ring_empty : forall (r : ring ascii), contents r = [] -> ring_ok r -> avail r = 0.
Proof. intros r H Ho. rewrite <- (contents_length r (proj1 Ho)), H. reflexivity. Qed.
