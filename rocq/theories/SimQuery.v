(** A request for the identification and its answer, for the SIM drivers. *)
From Coq Require Import String Ascii ZArith List Bool Arith Lia ZifyBool ZifyNat.
From Verif Require Import Base QueueSpec LineSpec SerialSpec Ring RingProofs LineRing LineRingProofs Serial SerialProofs
  SerStep TaskMacros CStr CStrProofs Dev DevProofs SimDev SimProofs SimSpec SimParse SimLog Sym DrvStep DrvCommon DrvRun DrvHand SimHand.
Import ListNotations.
Local Open Scope nat_scope.

(** The buffer after the text [s], received before [r], was kept. *)
Definition id_kept (s r b : bytes) : bytes :=
  firstn 23 (upto CR (s ++ NUL :: r)) ++ NUL :: skipn (S (length (firstn 23 (upto CR (s ++ NUL :: r))))) b.
Lemma id_kept_text : forall s r b, nulfree s = true -> upto CR s <> [] -> no_request (id_kept s r b) /\ str_body (id_kept s r b) = firstn 23 (upto CR s).
Proof.
  intros s r b Hn Hs. assert (Hne : s <> []) by (intros ->; apply Hs; reflexivity).
  destruct (id_stored_first s r b Hn Hne) as [[K _]|[K1 K2]].
  - exfalso. destruct s as [|c s]; [discriminate K|]. cbn [prefixb] in K. apply andb_prop in K as [K _]. apply Ascii.eqb_eq in K. subst c. apply Hs. reflexivity.
  - split; [|exact K2]. right. fold (id_kept s r b) in K1. destruct (nth_error (id_kept s r b) 0) as [c|] eqn:E.
    + exists c. split; [reflexivity|]. intros ->. apply K1. reflexivity.
    + exfalso. unfold id_kept in E. apply nth_error_None in E. rewrite app_length in E. cbn [length] in E. lia.
Qed.

(** A line that answers a request of the kind [t] with the text [s] (and the end of the line). *)
Definition id_answer (t : idtype) (s : bytes) (L : bytes) : Prop :=
  id_reply L = Some s /\ (t = idIccid -> iccid (leading_digits s)) /\ nulfree s = true /\ upto CR s <> [] /\ prefixb (bs "OK") L = false /\ prefixb (bs "ERROR") L = false.

Lemma no_id_reply : forall L, id_reply L = None -> prefixb (bs "ERROR") L = false /\ prefixb (bs "OK") L = false /\ True.
Proof.
  intros L H. destruct L as [|c L]; [splits; auto|]. unfold id_reply in H. splits; auto; apply not_true_is_false; intro K.
  all: cbn [bs list_ascii_of_string prefixb] in K; apply andb_prop in K as [K _]; apply Ascii.eqb_eq in K; subst c; discriminate H.
Qed.
Lemma id_reply_calm : forall L s, id_reply L = Some s -> prefixb (bs "+C") L = false /\ prefixb (bs "+IP") L = false.
Proof.
  intros L s H. split; apply not_true_is_false; intro K; apply prefixb_spec in K as [t ->]; discriminate H.
Qed.

(** Sending a request that is pending. *)
Lemma id_sent : forall SS RS icc (d : dev SS RS simx) t c, swf d -> length (idbuf (ext d)) = 24 -> fLine (fl d) = true ->
  nth_error (idbuf (ext d)) 0 = Some NUL -> nth_error (idbuf (ext d)) 1 = Some (id_code t) -> id_command icc t = Some c -> nulfree c = true ->
  exists y, wroteb (io d) y (c ++ [CR; LF]) /\ sim_send_id icc d = Ok (true, set_io y (set_x_idbuf (list_set (idbuf (ext d)) 1 (id_code idNone)) d)).
Proof.
  intros SS RS icc d t c Hw Hid Hl H0 H1 Hc Hn. unfold sim_send_id, rd. rewrite H0, H1. cbn [bind]. rewrite Hl.
  replace (negb (aeqb (id_code t) (id_code idNone))) with true by (destruct t; try discriminate Hc; reflexivity). replace (aeqb NUL NUL) with true by reflexivity. cbn [andb].
  rewrite wr_ok by lia. cbn [bind]. replace (id_of_code (id_code t)) with (Some t) by (destruct t; reflexivity). rewrite Hc.
  set (x := set_x_idbuf (list_set (idbuf (ext d)) 1 (id_code idNone)) d).
  pose proof (wp_send_command False c x (fun x' => exists y, wroteb (io d) y (cbody c ++ lineEndStr) /\ x' = set_io y x) Hw) as W.
  destruct (at_send_command c x) as [x'|]; cbn [wp] in W; [|destruct W; intros y Hy; exists y; auto].
  destruct W as (y & W1 & ->); [intros y Hy; exists y; auto|]. rewrite cbody_free in W1 by (apply nulfree_ok; exact Hn). exists y. split; [exact W1|reflexivity].
Qed.

(** The commands that ask for the identifications (3GPP TS 27.007); the one for the card's
    number differs. *)
Definition id_question (icc : bytes) (t : idtype) : bytes :=
  match t with
  | idNone => []
  | idManufacturer => bs "AT+CGMI"
  | idModel => bs "AT+CGMM"
  | idImei => bs "AT+CGSN"
  | idImsi => bs "AT+CIMI"
  | idIccid => icc
  end.

Lemma id_reply_net : forall L s, id_reply L = Some s -> prefixb (bs "+N") L = false.
Proof. intros L s H. apply not_true_is_false; intro K; apply prefixb_spec in K as [t ->]; discriminate H. Qed.

(** Reading a text that was kept. *)
Lemma id_got : forall b : bytes, In NUL b -> no_request b -> str_body b <> [] ->
  exists c, rd b 0 = Ok c /\ aeqb c NUL = false /\ cstring b = Ok (str_body b).
Proof.
  intros b Hn _ Hb. destruct b as [|c b]; [destruct Hn|]. exists c. split; [reflexivity|].
  split; [|apply cstring_ok; exact Hn]. unfold aeqb. destruct (Ascii.eqb_spec c NUL) as [->|]; [|reflexivity]. exfalso. apply Hb. reflexivity.
Qed.

(** The same, checked by computation. *)
Definition id_answerb (s L : bytes) : bool :=
  match id_reply L with Some u => if list_eq_dec ascii_dec u s then true else false | None => false end && nulfree s && negb (length (upto CR s) =? 0) && negb (prefixb (bs "OK") L) && negb (prefixb (bs "ERROR") L).
Lemma id_answerb_ok : forall t s L, t <> idIccid -> id_answerb s L = true <-> id_answer t s L.
Proof.
  intros t s L Ht. unfold id_answerb, id_answer. rewrite !andb_true_iff, !negb_true_iff. destruct (id_reply L) as [u|].
  - destruct (list_eq_dec ascii_dec u s) as [->|Hn].
    + destruct (upto CR s); cbn [length Nat.eqb]; intuition (discriminate || contradiction || auto).
    + split; [intros ((((H & _) & _) & _) & _); discriminate H|intros (H & _); congruence].
  - split; [intros ((((H & _) & _) & _) & _); discriminate H|intros (H & _); discriminate H].
Qed.
Definition no_idb (L : bytes) : bool := match id_reply L with Some _ => false | None => true end.

(** The answer with the value [n] (3GPP TS 27.007: "+CSQ: <rssi>,<ber>"). *)
Definition csq_text (n : Z) : bytes := bs "+CSQ: " ++ dec n ++ bs ",".
(** What the answer says about other things, and its value. *)
Lemma csq_text_calm : forall n L, prefixb (csq_text n) L = true -> prefixb (bs "+CSQ: ") L = true /\
  forall w, prefixb (bs w) (bs "+CSQ: ") = false -> prefixb (bs "+CSQ: ") (bs w) = false -> prefixb (bs w) L = false.
Proof.
  intros n L H. apply prefixb_spec in H as [u ->]. split; [apply prefixb_spec; exists (dec n ++ bs "," ++ u); unfold csq_text; rewrite <- !app_assoc; reflexivity|].
  intros w H1 H2. apply not_true_is_false. intro K. unfold csq_text in K. rewrite <- !app_assoc in K. generalize dependent (dec n ++ bs "," ++ u). intros v K.
  revert H1 H2 K. generalize (bs "+CSQ: "). generalize (bs w). induction b as [|c b IH]; intros [|c' b']; cbn [app prefixb]; intros H1 H2 K; try discriminate.
  apply andb_prop in K as [K1 K2]. rewrite K1 in H1. cbn [andb] in H1. apply Ascii.eqb_eq in K1. subst c'. rewrite Ascii.eqb_refl in H2. exact (IH b' H1 H2 K2).
Qed.
Lemma csq_text_value : forall P n L, (0 <= n < 2147483648)%Z -> prefixb (csq_text n) L = true -> csq_dbm (number P (skipn 6 L)) = dbm n.
Proof.
  intros P n L Hn H. apply prefixb_spec in H as [u ->]. unfold csq_text. rewrite <- !app_assoc. change (skipn 6 (bs "+CSQ: " ++ dec n ++ bs "," ++ u)) with (dec n ++ bs "," ++ u).
  rewrite number_dec by (try assumption; reflexivity). rewrite csq_dbm_spec, Z.mod_small by lia. reflexivity.
Qed.
