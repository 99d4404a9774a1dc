(** What the parsers shared by the Simcom drivers extract from a reply line,
    stated for the text of the line. *)
From Coq Require Import String Ascii ZArith List Bool Arith Lia ZifyBool ZifyNat.
From Verif Require Import Base QueueSpec LineSpec SerialSpec Ring RingProofs LineRing LineRingProofs Serial SerialProofs
  SerStep TaskMacros CStr CStrProofs Dev DevProofs SimDev SimProofs.
Import ListNotations.
Local Open Scope nat_scope.
Ltac Zify.zify_post_hook ::= Z.div_mod_to_equations.

(** ** Numbers *)

(** The number a text begins with: white space, a sign, digits; the rest is
    ignored. *)
Fixpoint digits_value (acc : Z) (s : bytes) : Z :=
  match s with
  | [] => acc
  | c :: r => if is_digit c then digits_value (acc * 10 + digit_val c)%Z r else acc
  end.
Definition signed_value (s : bytes) : Z :=
  match s with
  | [] => 0%Z
  | c :: r => if (code c =? 45)%Z then (- digits_value 0 r)%Z
              else if (code c =? 43)%Z then digits_value 0 r else digits_value 0 s
  end.
Fixpoint text_value (s : bytes) : Z :=
  match s with
  | [] => 0%Z
  | c :: r => if is_space c then text_value r else signed_value s
  end.
Definition number (P : plat) (s : bytes) : Z := long_sat P (text_value s).

Lemma strtol_digits_line : forall s acc r, strtol_digits (s ++ NUL :: r) acc = Ok (digits_value acc s).
Proof. induction s as [|c s IH]; intros acc r; cbn [app strtol_digits digits_value]; [reflexivity|]. destruct (is_digit c); [apply IH|reflexivity]. Qed.

Lemma strtol_raw_line : forall s r, strtol_raw (s ++ NUL :: r) = Ok (text_value s).
Proof.
  induction s as [|c s IH]; intro r; [reflexivity|]. cbn [app strtol_raw text_value]. destruct (is_space c); [apply IH|].
  unfold strtol_sign, signed_value. destruct (code c =? 45)%Z; [rewrite strtol_digits_line; reflexivity|].
  destruct (code c =? 43)%Z; [apply strtol_digits_line|]. exact (strtol_digits_line (c :: s) 0%Z r).
Qed.

Lemma strtol_line : forall P s r, strtol P (s ++ NUL :: r) = Ok (number P s).
Proof. intros. unfold strtol. rewrite strtol_raw_line. reflexivity. Qed.

Lemma digits_value_app : forall s acc r, Forall (fun c => is_digit c = true) s ->
  (match r with [] => True | c :: _ => is_digit c = false end) -> digits_value acc (s ++ r) = value acc s.
Proof.
  induction s as [|c s IH]; intros acc r Hs Hr; cbn [app digits_value value].
  - destruct r as [|c r]; [reflexivity|]. cbn. rewrite Hr. reflexivity.
  - inversion Hs; subst. rewrite H1. apply IH; assumption.
Qed.

Lemma digit_class : forall c, is_digit c = true -> is_space c = false /\ (code c =? 45)%Z = false /\ (code c =? 43)%Z = false.
Proof. intros c H. unfold is_digit, is_space in *. splits; lia. Qed.

Lemma text_value_dec : forall n r, (0 <= n < 4294967296)%Z -> (match r with [] => True | c :: _ => is_digit c = false end) ->
  text_value (dec n ++ r) = n.
Proof.
  intros n r Hn Hr. destruct (dec_spec n Hn) as (D1 & D2 & D3 & _). destruct (dec n) as [|c l] eqn:E; [cbn in D3; lia|].
  assert (Hc : is_digit c = true) by (inversion D1; assumption). destruct (digit_class c Hc) as (C1 & C2 & C3). cbn [app text_value]. rewrite C1. unfold signed_value. rewrite C2, C3.
  change (c :: l ++ r) with ((c :: l) ++ r). rewrite digits_value_app by assumption. exact D2.
Qed.

Lemma number_dec : forall P n r, (0 <= n < 2147483648)%Z -> (match r with [] => True | c :: _ => is_digit c = false end) ->
  number P (dec n ++ r) = n.
Proof.
  intros P n r Hn Hr. unfold number. rewrite text_value_dec by (auto; lia). unfold long_sat, long_max.
  destruct (long64 P); repeat match goal with |- context [if ?b then _ else _] => destruct b eqn:? end; lia.
Qed.

Lemma number_range : forall P s, (- long_max P - 1 <= number P s <= long_max P)%Z.
Proof. intros P s. unfold number, long_sat, long_max. destruct (long64 P); repeat match goal with |- context [if ?b then _ else _] => destruct b eqn:? end; lia. Qed.

(** ** Signal strength *)
Definition dbm (n : Z) : Z :=
  if (0 <=? n)%Z && (n <=? 31)%Z then (-113 + 2 * n)%Z
  else if (100 <=? n)%Z && (n <=? 199)%Z then (n - 216)%Z
  else 0%Z.

Lemma csq_dbm_spec : forall v, csq_dbm v = dbm (v mod 4294967296).
Proof.
  intro v. unfold csq_dbm, dbm, u32, i16. set (r := (v mod 4294967296)%Z). assert (0 <= r < 4294967296)%Z by (subst r; lia).
  clearbody r. repeat match goal with |- context [if ?b then _ else _] => destruct b eqn:? end; lia.
Qed.

Lemma dbm_range : forall n, (-116 <= dbm n <= 0)%Z.
Proof. intro n. unfold dbm. repeat match goal with |- context [if ?b then _ else _] => destruct b eqn:? end; lia. Qed.

Lemma csq_never_pending : forall v, csq_dbm v <> INT16_MAX.
Proof. intro v. rewrite csq_dbm_spec. pose proof (dbm_range (v mod 4294967296)). unfold INT16_MAX. lia. Qed.

(** ** The address in a DNS reply *)
Lemma upto_app : forall c s r, ~ In c s -> upto c (s ++ c :: r) = s.
Proof.
  intros c s r H. induction s as [|x s IH]; cbn [app upto].
  - rewrite Ascii.eqb_refl. reflexivity.
  - destruct (Ascii.eqb x c) eqn:E; [apply Ascii.eqb_eq in E; subst; contradiction H; left; reflexivity|].
    f_equal. apply IH. intro K. apply H. right. exact K.
Qed.

Lemma behind_quotes_skip : forall s n r, ~ In DQ s -> behind_quotes (S n) (s ++ DQ :: r) = behind_quotes n r.
Proof.
  intros s n r H. induction s as [|x s IH]; cbn [app behind_quotes]; [rewrite Ascii.eqb_refl; reflexivity|].
  destruct (Ascii.eqb x DQ) eqn:E; [apply Ascii.eqb_eq in E; subst; contradiction H; left; reflexivity|].
  apply IH. intro K. apply H. right. exact K.
Qed.

(** A reply that names the host and its addresses. *)
Definition dns_reply (h a rest : bytes) : bytes := bs "+CDNSGIP: 1," ++ DQ :: h ++ DQ :: bs "," ++ DQ :: a ++ DQ :: rest.

Lemma dns_ip_reply : forall h a rest, ~ In DQ h -> ~ In DQ a -> dns_ip (dns_reply h a rest) = Some a.
Proof.
  intros h a rest Hh Ha. unfold dns_ip, dns_reply.
  rewrite (behind_quotes_skip (bs "+CDNSGIP: 1,") 2) by (cbn; intros K; repeat destruct K as [K|K]; try discriminate; contradiction).
  rewrite (behind_quotes_skip h 1) by assumption. rewrite (behind_quotes_skip (bs ",") 0) by (cbn; intros [K|K]; [discriminate|contradiction]).
  assert (B0 : forall l, behind_quotes 0 l = Some l) by (intros []; reflexivity). rewrite B0, upto_app by assumption. reflexivity.
Qed.

Lemma quotes_reply : forall h a rest, ~ In DQ h -> ~ In DQ a -> quotes (dns_reply h a rest) = 4 + quotes rest.
Proof.
  intros h a rest Hh Ha. unfold quotes, dns_reply. rewrite !count_occ_app.
  change (DQ :: h ++ DQ :: bs "," ++ DQ :: a ++ DQ :: rest) with ([DQ] ++ h ++ [DQ] ++ bs "," ++ [DQ] ++ a ++ [DQ] ++ rest).
  rewrite !count_occ_app. apply (count_occ_not_In ascii_dec) in Hh, Ha. rewrite Hh, Ha. reflexivity.
Qed.

(** ** Identifications *)

(** The Luhn check of ISO/IEC 7812: from the right, every second digit is
    doubled and the digits of the result are added. *)
Definition cross_sum (n : Z) : Z := (n / 10 + n mod 10)%Z.
Fixpoint luhn_even (ds : list Z) : Z := match ds with [] => 0%Z | x :: r => (x + luhn_odd r)%Z end
with luhn_odd (ds : list Z) : Z := match ds with [] => 0%Z | x :: r => (cross_sum (2 * x) + luhn_even r)%Z end.
Definition luhn (s : bytes) : Prop := (luhn_even (map digit_val (rev s)) mod 10 = 0)%Z.

(** ICCIDs: 18 to 22 digits beginning with 89 whose check digit is right. *)
Definition iccid (s : bytes) : Prop :=
  Forall (fun c => is_digit c = true) s /\ 18 <= length s <= 22 /\ prefixb (bs "89") s = true /\ luhn s.

Fixpoint leading_digits (s : bytes) : bytes :=
  match s with [] => [] | c :: r => if is_digit c then c :: leading_digits r else [] end.

Lemma luhn_sum_spec : forall s b, Forall (fun c => is_digit c = true) s ->
  luhn_sum s b = (if b then luhn_odd (map digit_val s) else luhn_even (map digit_val s)).
Proof.
  induction s as [|c s IH]; intros b Hs; [destruct b; reflexivity|]. inversion Hs as [|? ? Hc Hs']; subst. cbn [luhn_sum map]. rewrite (IH (negb b) Hs').
  assert (0 <= digit_val c <= 9)%Z by (unfold is_digit, digit_val in *; lia).
  destruct b; cbn [negb luhn_even luhn_odd]; unfold cross_sum.
  - rewrite (Z.mul_comm 2). reflexivity.
  - lia.
Qed.

Lemma leading_digits_all : forall s, Forall (fun c => is_digit c = true) (leading_digits s).
Proof. induction s as [|c s IH]; cbn; [constructor|]. destruct (is_digit c) eqn:E; constructor; auto. Qed.

Lemma leading_split : forall s, exists r, s = leading_digits s ++ r /\ match r with [] => True | c :: _ => is_digit c = false end.
Proof.
  induction s as [|c s (r & E & H)]; cbn; [exists []; auto|]. destruct (is_digit c) eqn:Ec.
  - exists r. cbn. rewrite <- E. auto.
  - exists (c :: s). auto.
Qed.

Lemma count_digits_line : forall s r, count_digits (s ++ NUL :: r) = Ok (length (leading_digits s)).
Proof.
  induction s as [|c s IH]; intro r; [reflexivity|]. cbn [app count_digits leading_digits]. destruct (is_digit c); [|reflexivity].
  rewrite IH. reflexivity.
Qed.

Theorem iccid_valid_line : forall s r, exists b, iccid_valid (s ++ NUL :: r) = Ok b /\ (b = true <-> iccid (leading_digits s)).
Proof.
  intros s r. unfold iccid_valid. rewrite count_digits_line. cbn [bind].
  destruct (leading_split s) as (t & Es & Ht). pose proof (leading_digits_all s) as HD. set (D := leading_digits s) in *. clearbody D.
  assert (Ef : firstn (length D) (s ++ NUL :: r) = D).
  { rewrite Es, <- app_assoc, firstn_app, Nat.sub_diag, firstn_O, app_nil_r, firstn_all. reflexivity. }
  rewrite Ef. rewrite luhn_sum_spec by (apply Forall_rev; assumption).
  destruct ((18 <=? length D) && (length D <=? 22) && (luhn_even (map digit_val (rev D)) mod 10 =? 0)%Z) eqn:Ec.
  - apply andb_true_iff in Ec as [Ec E3]. apply andb_true_iff in Ec as [E1 E2].
    apply Nat.leb_le in E1, E2. apply Z.eqb_eq in E3.
    destruct D as [|c0 [|c1 D]]; cbn [length] in E1; try lia.
    assert (EP : prefixb (bs "89") (c0 :: c1 :: D) = Ascii.eqb c0 "8"%char && Ascii.eqb c1 "9"%char).
    { change (Ascii.eqb "8"%char c0 && (Ascii.eqb "9"%char c1 && true) = Ascii.eqb c0 "8"%char && Ascii.eqb c1 "9"%char).
      rewrite andb_true_r, (Ascii.eqb_sym c0), (Ascii.eqb_sym c1). reflexivity. }
    rewrite Es. unfold rd. cbn [app nth_error bind]. unfold aeqb.
    exists (Ascii.eqb c0 "8"%char && Ascii.eqb c1 "9"%char). split.
    + destruct (Ascii.eqb c0 "8"%char); reflexivity.
    + unfold iccid. rewrite EP. unfold luhn. split; [intro H; splits; auto|tauto].
  - exists false. split; [reflexivity|]. split; [discriminate|]. intros (_ & [K1 K2] & _ & K3). unfold luhn in K3.
    apply Nat.leb_le in K1, K2. rewrite K1, K2, K3 in Ec. discriminate.
Qed.

(** The text of a reply to an identification request, if the line is one. *)
Definition id_reply (L : bytes) : option bytes :=
  if prefixb (bs "AT") L || prefixb [CR] L then None
  else if prefixb (bs "+ICCID: ") L then Some (skipn 8 L)
  else if prefixb (bs "+") L then None
  else Some L.

Lemma id_text_line : forall L r, id_text (L ++ NUL :: r) = match id_reply L with Some s => Some (s ++ NUL :: r) | None => None end.
Proof.
  intros L r. unfold id_reply. rewrite <- (prefixb_line (bs "AT") L r), <- (prefixb_line (bs "+ICCID: ") L r), <- (prefixb_line (bs "+") L r)
    by (cbn; intros K; repeat destruct K as [K|K]; try discriminate; contradiction).
  rewrite <- (prefixb_line [CR] L r) by (cbn; intros [K|K]; [discriminate|contradiction]).
  destruct (L ++ NUL :: r) as [|c l] eqn:E; [destruct L; discriminate|]. unfold id_text.
  assert (Ec : prefixb [CR] (c :: l) = Ascii.eqb c CR).
  { change (Ascii.eqb CR c && true = Ascii.eqb c CR). rewrite andb_true_r. apply Ascii.eqb_sym. }
  rewrite Ec. destruct (prefixb (bs "AT") (c :: l) || Ascii.eqb c CR); [reflexivity|].
  destruct (prefixb (bs "+ICCID: ") (c :: l)) eqn:Ei.
  - f_equal. rewrite <- E in Ei |- *. rewrite prefixb_line in Ei by (cbn; intros K; repeat destruct K as [K|K]; try discriminate; contradiction).
    apply prefixb_spec in Ei as [t ->]. rewrite <- app_assoc. reflexivity.
  - destruct (prefixb (bs "+") (c :: l)); [reflexivity|]. rewrite <- E. reflexivity.
Qed.

(** What getIDString() later returns: up to the carriage return, at most 23
    characters (and nothing behind a NUL). *)
Lemma stored_text : forall s n r t, str_body (firstn n (upto CR (s ++ NUL :: r)) ++ NUL :: t) = firstn n (upto CR (cbody s)).
Proof.
  induction s as [|c s IH]; intros n r t.
  - cbn [app upto]. change (Ascii.eqb NUL CR) with false. cbn iota. destruct n; reflexivity.
  - unfold cbody. cbn [app upto str_body]. destruct (Ascii.eqb c NUL) eqn:En.
    + apply Ascii.eqb_eq in En. subst c. change (Ascii.eqb NUL CR) with false. change (Ascii.eqb NUL "000"%char) with true. cbn iota.
      destruct n; reflexivity.
    + change (Ascii.eqb c "000"%char) with (Ascii.eqb c NUL). rewrite En. cbn iota. cbn [upto]. destruct (Ascii.eqb c CR); [destruct n; reflexivity|].
      destruct n; [reflexivity|]. cbn [firstn app str_body]. change (Ascii.eqb c "000"%char) with (Ascii.eqb c NUL). rewrite En. f_equal. apply IH.
Qed.

(** ** The parsers on the line [L] *)
Definition nulfree (s : bytes) : bool := forallb (fun c => negb (Ascii.eqb c NUL)) s.
Lemma nulfree_ok : forall s, nulfree s = true -> ~ In NUL s.
Proof. intros s H K. unfold nulfree in H. rewrite forallb_forall in H. apply H in K. rewrite Ascii.eqb_refl in K. discriminate. Qed.

Lemma body_line : forall L r, str_body (L ++ NUL :: r) = cbody L.
Proof.
  intros L r. unfold cbody. induction L as [|c L IH]; [reflexivity|]. cbn [app]. cbn [str_body]. destruct (Ascii.eqb c "000"); [reflexivity|]. f_equal. exact IH.
Qed.

Section Lines.
Context {SS RS : Type}.
Notation dv := (dev SS RS simx).
Variables (P : plat) (L r : bytes) (d : dv).
Hypothesis HL : lbuf d = L ++ NUL :: r.
Hypothesis Hlen : length (L ++ NUL :: r) = 61.

Lemma lstarts_line : forall lit, nulfree lit = true -> length lit <= 61 -> lstarts lit d = Ok (prefixb lit L).
Proof.
  intros lit Hf Hl. apply nulfree_ok in Hf. rewrite lstarts_eq by (rewrite ?HL, ?Hlen; assumption). rewrite HL, prefixb_line by assumption. reflexivity.
Qed.

Lemma lmatch_line : forall w, nulfree w = true -> length w <= 61 -> lmatch (clen w) w d = Ok (prefixb w L).
Proof.
  intros w Hf Hl. pose proof Hf as Hf'. apply nulfree_ok in Hf'. rewrite clen_free by assumption. exact (lstarts_line w Hf Hl).
Qed.

Lemma skip_line : forall lit, prefixb lit L = true -> skipn (length lit) (lbuf d) = skipn (length lit) L ++ NUL :: r.
Proof.
  intros lit H. rewrite HL. apply prefixb_spec in H as [t ->]. rewrite <- app_assoc.
  rewrite !skipn_app, !skipn_all, !Nat.sub_diag. reflexivity.
Qed.

Lemma csq_line : sim_parse_csq P d =
  Ok (if prefixb (bs "+CSQ: ") L then (true, set_rssi (csq_dbm (number P (skipn 6 L))) d) else (false, d)).
Proof.
  unfold sim_parse_csq. rewrite lstarts_line by (reflexivity || (cbn; lia)). cbn [bind]. destruct (prefixb (bs "+CSQ: ") L) eqn:E; [|reflexivity].
  rewrite (skip_line (bs "+CSQ: ") E : skipn 6 (lbuf d) = _), strtol_line. reflexivity.
Qed.

Lemma ciprxget4_line : sim_parse_ciprxget4 P d =
  Ok (if prefixb (bs "+CIPRXGET: 4,0,") L then (true, set_toReceive (u64 (toReceive d + i32 (number P (skipn 15 L)))) d) else (false, d)).
Proof.
  unfold sim_parse_ciprxget4. rewrite lstarts_line by (reflexivity || (cbn; lia)). cbn [bind]. destruct (prefixb (bs "+CIPRXGET: 4,0,") L) eqn:E; [|reflexivity].
  rewrite (skip_line (bs "+CIPRXGET: 4,0,") E : skipn 15 (lbuf d) = _), strtol_line. reflexivity.
Qed.

Lemma ciprxget2_line : sim_parse_ciprxget2 P d =
  Ok (if prefixb (bs "+CIPRXGET: 2,0,") L then
        let v := i32 (number P (skipn 15 L)) in
        (true, on_line false (set_toRead (u64 (toRead d + v)) (set_toReceive (u64 (toReceive d - v)) d)))
      else (false, d)).
Proof.
  unfold sim_parse_ciprxget2. rewrite lstarts_line by (reflexivity || (cbn; lia)). cbn [bind]. destruct (prefixb (bs "+CIPRXGET: 2,0,") L) eqn:E; [|reflexivity].
  rewrite (skip_line (bs "+CIPRXGET: 2,0,") E : skipn 15 (lbuf d) = _), strtol_line. reflexivity.
Qed.

Lemma check_line : forall cv, nulfree cv = true -> length cv <= 61 -> sim_check_connection cv d =
  Ok (if prefixb (bs "+CIPRXGET: 1,0") L then on_data true d
      else if prefixb cv L then on_ip false (set_wait None d) else d).
Proof.
  intros cv Hf Hl. unfold sim_check_connection. rewrite lstarts_line by (reflexivity || (cbn; lia)). cbn [bind].
  destruct (prefixb (bs "+CIPRXGET: 1,0") L); [reflexivity|]. rewrite lstarts_line by assumption. reflexivity.
Qed.

(** The DNS reply: too few or too many quotes are an error, "0" asks for a
    reset, an address longer than 15 characters is undefined behaviour. *)
Lemma dns_line : length (ip (ext d)) = 16 ->
  wp (prefixb (bs "+CDNSGIP: 1") L = true /\ 4 <= quotes (cbody L) <= 10 /\ exists a, dns_ip (cbody L) = Some a /\ 15 < length a)
    (sim_parse_dns d) (fun p =>
    (prefixb (bs "+CDNSGIP: 1") L = true /\ ~ 4 <= quotes (cbody L) <= 10 /\ p = (false, set_cst csDnsError d)) \/
    (prefixb (bs "+CDNSGIP: 1") L = false /\ p = (false, if prefixb (bs "+CDNSGIP: 0") L then on_reset true d else d)) \/
    (prefixb (bs "+CDNSGIP: 1") L = true /\ 4 <= quotes (cbody L) <= 10 /\ exists a lb, dns_ip (cbody L) = Some a /\ length a <= 15 /\ ~ In NUL a /\
       parsed lb /\ prefixb (bs "+CDNSGIP: 1") lb = true /\
       p = (true, set_ext (set_ip (a ++ NUL :: skipn (S (length a)) (ip (ext d))) (ext d)) (set_lbuf lb d)))).
Proof.
  intro Hip. assert (Hp : parsed (lbuf d)) by (rewrite HL; split; [exact Hlen|apply in_or_app; right; left; reflexivity]).
  assert (HP : forall lit, nulfree lit = true -> prefixb lit (lbuf d) = prefixb lit L) by (intros; rewrite HL; apply prefixb_line, nulfree_ok; assumption).
  assert (HB : str_body (lbuf d) = cbody L) by (rewrite HL; apply body_line).
  apply wp_parse_dns; try assumption; unfold dns_good; rewrite ?HP by reflexivity; rewrite ?HB.
  - auto.
  - intros E1 E2. right. left. rewrite E2. auto.
  - intros E1 E2. right. left. rewrite E2. auto.
  - intros a (G1 & G2) E Hl. eauto.
  - intros a lb (G1 & G2) E Hl Hn H1 H2. right. right. split; [exact G1|]. split; [exact G2|]. exists a, lb. splits; auto; apply H1.
Qed.

Lemma dns_overflow_line : forall a, length (ip (ext d)) = 16 -> prefixb (bs "+CDNSGIP: 1") L = true -> 4 <= quotes (cbody L) <= 10 ->
  dns_ip (cbody L) = Some a -> 15 < length a -> sim_parse_dns d = UB OutOfBounds.
Proof.
  intros a Hip E1 Eq Ea Hl. unfold sim_parse_dns. rewrite lstarts_line by (reflexivity || (cbn; lia)). cbn [bind]. rewrite E1.
  assert (Hnul : In NUL (lbuf d)) by (rewrite HL; apply in_or_app; right; left; reflexivity).
  assert (HB : str_body (lbuf d) = cbody L) by (rewrite HL; apply body_line).
  rewrite (count_char_spec DQ) by (assumption || discriminate). cbn [bind]. fold (quotes (str_body (lbuf d))). rewrite HB.
  replace ((quotes (cbody L) <? 4) || (10 <? quotes (cbody L))) with false by lia.
  destruct (behind_quotes_some (str_body (lbuf d)) 3 ltac:(rewrite HB; lia)) as [t Er].
  destruct (after_quotes_behind (lbuf d) 3 0 t ltac:(rewrite HB; lia) Er) as (j & Ej & Hr & Hj). rewrite Ej. cbn [bind Nat.add].
  assert (Hns : In NUL (skipn j (lbuf d))) by (apply in_skipn_nul; assumption).
  destruct (blank_quotes_ok _ Hns) as (rest & Eb & Hbl & Hbn). rewrite Eb. cbn [bind].
  rewrite cstring_ok by assumption. cbn [bind].
  assert (Ha : dns_ip (str_body (lbuf d)) = Some (str_body rest)).
  { unfold dns_ip. rewrite Er. rewrite (blank_upto _ _ Hns Eb), skipn_body, <- Hr by assumption. reflexivity. }
  rewrite HB, Ea in Ha. inversion Ha; subst a. dsimp. cbn [ext].
  rewrite wr_list_bad; [reflexivity|cbn; lia|rewrite app_length, Hip; cbn; lia].
Qed.

(** The identification: which lines are accepted, and what is stored. *)
Lemma id_line : length (idbuf (ext d)) = 24 ->
  (exists s, id_reply L = Some s /\ (nth_error (idbuf (ext d)) 2 = Some (id_code idIccid) -> iccid (leading_digits s)) /\
     sim_parse_id d = Ok (true, set_x_idbuf (firstn 23 (upto CR (s ++ NUL :: r)) ++
       NUL :: skipn (S (length (firstn 23 (upto CR (s ++ NUL :: r))))) (idbuf (ext d))) d)) \/
  ((forall s, id_reply L = Some s -> nth_error (idbuf (ext d)) 2 = Some (id_code idIccid) /\ ~ iccid (leading_digits s)) /\
   sim_parse_id d = Ok (false, d)).
Proof.
  intro Hid. unfold sim_parse_id. rewrite !lstarts_line by (reflexivity || (cbn; lia)). cbn [bind].
  assert (Hc : exists c0, rd (lbuf d) 0 = Ok c0 /\ aeqb c0 CR = prefixb [CR] L).
  { rewrite HL. destruct L as [|c l]; [exists NUL; split; reflexivity|]. exists c. split; [reflexivity|].
    change (Ascii.eqb c CR = Ascii.eqb CR c && true). rewrite andb_true_r. apply Ascii.eqb_sym. }
  destruct Hc as (c0 & Ec0 & Ec). rewrite Ec0. cbn [bind]. rewrite Ec. unfold id_reply.
  destruct (prefixb (bs "AT") L || prefixb [CR] L) eqn:E1; [right; split; [discriminate|reflexivity]|].
  assert (Hgo : forall s, 23 < length (s ++ NUL :: r) ->
     let e := (let* t := rd (idbuf (ext d)) 2 in
           let* valid := if aeqb t (id_code idIccid) then iccid_valid (s ++ NUL :: r) else Ok true in
           if valid then
             let* s := copy_until CR (IDSTRING_MAX_LENGTH - 1) (s ++ NUL :: r) in
             let* b := wr_list (idbuf (ext d)) 0 (s ++ [NUL]) in
             Ok (true, set_x_idbuf b d)
           else Ok (false, d))%res in
     ((nth_error (idbuf (ext d)) 2 = Some (id_code idIccid) -> iccid (leading_digits s)) /\
       e = Ok (true, set_x_idbuf (firstn 23 (upto CR (s ++ NUL :: r)) ++
       NUL :: skipn (S (length (firstn 23 (upto CR (s ++ NUL :: r))))) (idbuf (ext d))) d)) \/
     ((nth_error (idbuf (ext d)) 2 = Some (id_code idIccid) /\ ~ iccid (leading_digits s)) /\ e = Ok (false, d))).
  { intros s Hs e. subst e. destruct (rd_ok' _ (idbuf (ext d)) 2 ltac:(lia)) as (t & Et & Hn2). rewrite Et. cbn [bind].
    assert (Hfin : (let* s := copy_until CR (IDSTRING_MAX_LENGTH - 1) (s ++ NUL :: r) in
            let* b := wr_list (idbuf (ext d)) 0 (s ++ [NUL]) in Ok (true, set_x_idbuf b d))%res =
            Ok (true, set_x_idbuf (firstn 23 (upto CR (s ++ NUL :: r)) ++
       NUL :: skipn (S (length (firstn 23 (upto CR (s ++ NUL :: r))))) (idbuf (ext d))) d)).
    { rewrite copy_until_ok by (change (IDSTRING_MAX_LENGTH - 1) with 23; lia). cbn [bind]. change (IDSTRING_MAX_LENGTH - 1) with 23.
      assert (length (firstn 23 (upto CR (s ++ NUL :: r))) <= 23) by apply firstn_le_length.
      rewrite wr_list_ok by (rewrite app_length, Hid; cbn [length]; lia).
      cbn [bind Nat.add]. rewrite app_length. cbn [length]. rewrite Nat.add_1_r. rewrite <- app_assoc. reflexivity. }
    unfold aeqb. rewrite Hn2. destruct (Ascii.eqb_spec t (id_code idIccid)) as [->|Hne].
    - destruct (iccid_valid_line s r) as (b & Eb & Hb). rewrite Eb. cbn [bind]. destruct b.
      + left. split; [intros _; apply Hb; reflexivity|exact Hfin].
      + right. split; [|reflexivity]. split; [reflexivity|]. intro K. apply Hb in K. discriminate.
    - cbn [bind]. left. split; [intro K; injection K as ->; congruence|exact Hfin]. }
  assert (HLr : 38 <= length (L ++ NUL :: r)) by lia.
  destruct (prefixb (bs "+ICCID: ") L) eqn:E2; cbn [negb andb].
  - pose proof (skip_line (bs "+ICCID: ") E2) as Esk. change (length (bs "+ICCID: ")) with 8 in Esk. rewrite Esk.
    destruct (Hgo (skipn 8 L)) as [[G1 G2]|[G1 G2]].
    + rewrite <- Esk, skipn_length, HL. lia.
    + left. exists (skipn 8 L). splits; auto.
    + right. split; [|exact G2]. intros s Es. injection Es as <-. exact G1.
  - destruct (prefixb (bs "+") L) eqn:E3; [right; split; [discriminate|reflexivity]|]. rewrite HL.
    destruct (Hgo L ltac:(lia)) as [[G1 G2]|[G1 G2]].
    + left. exists L. splits; auto.
    + right. split; [|exact G2]. intros s Es. injection Es as <-. exact G1.
Qed.
End Lines.
