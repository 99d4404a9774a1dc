(** Facts about the C library functions of CStr.v and the parsing helpers. *)
From Coq Require Import String Ascii ZArith List Bool Arith Lia ZifyBool ZifyNat.
From Verif Require Import Base SerialSpec RingProofs SerialProofs CStr SimDev Espressif.
Import ListNotations.
Local Open Scope nat_scope.
Ltac Zify.zify_post_hook ::= Z.div_mod_to_equations.

(** Does the text start with the literal? *)
Fixpoint prefixb (lit a : bytes) : bool :=
  match lit, a with
  | [], _ => true
  | x :: l, y :: b => Ascii.eqb x y && prefixb l b
  | _ :: _, [] => false
  end.

Lemma prefixb_spec : forall lit a, prefixb lit a = true <-> exists r, a = lit ++ r.
Proof.
  induction lit as [|x l IH]; intros a; cbn.
  - split; eauto.
  - destruct a as [|y b]; [split; [discriminate|intros [r H]; discriminate]|].
    rewrite andb_true_iff, IH, Ascii.eqb_eq. split.
    + intros [-> [r ->]]. eauto.
    + intros [r H]. injection H as -> ->. eauto.
Qed.

Lemma prefixb_app : forall lit a b, length lit <= length a -> prefixb lit (a ++ b) = prefixb lit a.
Proof.
  induction lit as [|x l IH]; intros [|y a] b H; cbn in *; try lia; auto.
  rewrite IH by lia. reflexivity.
Qed.

Lemma nul_free_app : forall a b, ~ In NUL (a ++ b) <-> ~ In NUL a /\ ~ In NUL b.
Proof. intros. rewrite in_app_iff. tauto. Qed.

Lemma str_body_free : forall s r, ~ In NUL s -> str_body (s ++ NUL :: r) = s.
Proof.
  induction s as [|c s IH]; intros r H; cbn [str_body app]; [reflexivity|].
  change "000"%char with NUL. destruct (Ascii.eqb_spec c NUL) as [->|Hne]; [exfalso; apply H; left; reflexivity|].
  rewrite IH; [reflexivity|]. intro; apply H; right; assumption.
Qed.
Lemma clen_free : forall s, ~ In NUL s -> clen s = length s.
Proof. intros s H. unfold clen. rewrite str_body_free by assumption. reflexivity. Qed.

Lemma str_body_le : forall s, length (str_body s) <= length s.
Proof. induction s as [|c s IH]; cbn; [lia|]. destruct (Ascii.eqb _ _); cbn; lia. Qed.
Lemma str_body_no_nul : forall s, ~ In NUL (str_body s).
Proof.
  induction s as [|c s IH]; cbn; [tauto|]. destruct (Ascii.eqb_spec c "000") as [->|H]; cbn; [tauto|].
  intros [E|E]; [subst; apply H; reflexivity|tauto].
Qed.
Lemma str_body_split : forall s, In NUL s -> exists r, s = str_body s ++ NUL :: r.
Proof.
  induction s as [|c s IH]; intros H; [destruct H|]. cbn [str_body]. destruct (Ascii.eqb_spec c "000") as [->|Hne].
  - exists s. reflexivity.
  - destruct H as [->|H]; [exfalso; apply Hne; reflexivity|]. destruct (IH H) as [r E]. exists r. cbn [app]. rewrite <- E. reflexivity.
Qed.
Lemma str_body_firstn : forall s, In NUL s -> firstn (length (str_body s)) s = str_body s.
Proof.
  intros s H. destruct (str_body_split s H) as [r E]. rewrite E at 2. rewrite firstn_app, Nat.sub_diag, firstn_O, app_nil_r.
  apply firstn_all.
Qed.

Lemma strncmp_ok : forall n lit a, n <= length lit -> n <= length a -> ~ In NUL lit ->
  strncmp n a (lit ++ [NUL]) = Ok (prefixb (firstn n lit) a).
Proof.
  induction n as [|n IH]; intros lit a Hl Ha Hf; [reflexivity|].
  destruct lit as [|x l]; [cbn in Hl; lia|]. destruct a as [|y a]; [cbn in Ha; lia|].
  cbn [strncmp app firstn prefixb length] in *. unfold aeqb.
  rewrite (Ascii.eqb_sym x y). destruct (Ascii.eqb_spec y x) as [->|]; cbn [negb andb]; [|reflexivity].
  destruct (Ascii.eqb_spec x NUL) as [->|]; [exfalso; apply Hf; left; reflexivity|].
  apply IH; try lia. intro; apply Hf; right; assumption.
Qed.

(** Character classes *)
Lemma not_digit_NUL : is_digit NUL = false. Proof. reflexivity. Qed.
Lemma not_space_NUL : is_space NUL = false. Proof. reflexivity. Qed.

Lemma strtol_digits_safe : forall a acc, In NUL a -> exists v, strtol_digits a acc = Ok v.
Proof.
  induction a as [|c a IH]; intros acc H; [destruct H|]. cbn [strtol_digits].
  destruct (is_digit c) eqn:E; [|eauto]. destruct H as [->|H]; [discriminate|eauto].
Qed.
Lemma strtol_raw_safe : forall a, In NUL a -> exists v, strtol_raw a = Ok v.
Proof.
  induction a as [|c a IH]; intros H; [destruct H|]. cbn [strtol_raw].
  destruct (is_space c) eqn:E.
  - destruct H as [->|H]; [discriminate|eauto].
  - unfold strtol_sign. destruct (code c =? 45)%Z eqn:E1.
    + destruct H as [->|H]; [discriminate|]. destruct (strtol_digits_safe a 0%Z H) as [v E3]. rewrite E3. cbn [bind]. eauto.
    + destruct (code c =? 43)%Z eqn:E2.
      * destruct H as [->|H]; [discriminate|]. apply strtol_digits_safe; assumption.
      * apply strtol_digits_safe; assumption.
Qed.
Lemma strtol_safe : forall P a, In NUL a -> exists v, strtol P a = Ok v.
Proof. intros P a H. unfold strtol. destruct (strtol_raw_safe a H) as [v ->]. cbn [bind]. eauto. Qed.

(** Decimal numbers *)
Lemma digit_free : forall n, (0 <= n < 10)%Z -> digit n <> NUL /\ is_digit (digit n) = true /\ digit_val (digit n) = n.
Proof.
  intros n H. assert (E : (n = 0 \/ n = 1 \/ n = 2 \/ n = 3 \/ n = 4 \/ n = 5 \/ n = 6 \/ n = 7 \/ n = 8 \/ n = 9)%Z) by lia.
  repeat destruct E as [->|E]; try subst; vm_compute; splits; try reflexivity; discriminate.
Qed.

(** Value of a string of digits. *)
Fixpoint value (acc : Z) (l : bytes) : Z :=
  match l with [] => acc | c :: r => value (acc * 10 + digit_val c)%Z r end.

Lemma value_shift : forall l a b, (value (a + b) l = a * 10 ^ Z.of_nat (length l) + value b l)%Z.
Proof.
  induction l as [|c l IH]; intros a b; cbn [value length].
  - rewrite Z.pow_0_r. lia.
  - rewrite Nat2Z.inj_succ, Z.pow_succ_r by lia.
    replace ((a + b) * 10 + digit_val c)%Z with (a * 10 + (b * 10 + digit_val c))%Z by lia. rewrite IH. ring.
Qed.

Lemma dec_loop_spec : forall fuel n acc, (0 <= n < 10 ^ Z.of_nat fuel)%Z -> 0 < fuel ->
  exists l, dec_loop fuel n acc = l ++ acc /\ Forall (fun c => is_digit c = true) l /\ value 0 l = n /\
    1 <= length l /\ (forall k, 0 < k -> (n < 10 ^ Z.of_nat k)%Z -> length l <= k).
Proof.
  induction fuel as [|f IH]; intros n acc H Hf; [lia|]. cbn [dec_loop].
  destruct (digit_free (n mod 10)) as (D1 & D2 & D3); [apply Z.mod_pos_bound; lia|].
  destruct (n / 10 =? 0)%Z eqn:E.
  - exists [digit (n mod 10)]. cbn [app value length]. splits; auto; try lia.
  - apply Z.eqb_neq in E.
    assert (Hn : (0 <= n / 10 < 10 ^ Z.of_nat f)%Z).
    { split; [apply Z.div_pos; lia|]. apply Z.div_lt_upper_bound; [lia|].
      rewrite Nat2Z.inj_succ, Z.pow_succ_r in H by lia. lia. }
    assert (0 < f). { destruct f; [|lia]. cbn in Hn. lia. }
    destruct (IH (n / 10)%Z (digit (n mod 10) :: acc) Hn H0) as (l & E1 & E2 & E3 & E4 & E5).
    exists (l ++ [digit (n mod 10)]). rewrite E1, <- app_assoc. splits; auto.
    + apply Forall_app. auto.
    + assert (V : forall l a x, value a (l ++ [x]) = (value a l * 10 + digit_val x)%Z).
      { induction l0 as [|c l0 IHl]; intros a x; cbn [app value]; [reflexivity|apply IHl]. }
      rewrite V, E3, D3. pose proof (Z.div_mod n 10 ltac:(lia)). lia.
    + rewrite app_length. cbn. lia.
    + intros k Hk Hlt. rewrite app_length. cbn [length]. destruct k as [|k]; [lia|].
      rewrite Nat2Z.inj_succ, Z.pow_succ_r in Hlt by lia.
      destruct k as [|k].
      { cbn in Hlt. assert (n / 10 = 0)%Z by (apply Z.div_small; lia). lia. }
      specialize (E5 (S k) ltac:(lia)). assert (n / 10 < 10 ^ Z.of_nat (S k))%Z; [|lia].
      apply Z.div_lt_upper_bound; lia.
Qed.

Lemma dec_spec : forall n, (0 <= n < 4294967296)%Z ->
  Forall (fun c => is_digit c = true) (dec n) /\ value 0 (dec n) = n /\ 1 <= length (dec n) /\
  (forall k, 0 < k -> (n < 10 ^ Z.of_nat k)%Z -> length (dec n) <= k).
Proof.
  intros n H. unfold dec. assert (u32 n = n) as -> by (unfold u32; apply Z.mod_small; lia).
  destruct (dec_loop_spec 10 n []) as (l & E & F & V & L & B); [cbn; lia|lia|].
  rewrite E, app_nil_r. auto.
Qed.

Lemma digits_free : forall l, Forall (fun c => is_digit c = true) l -> ~ In NUL l.
Proof. intros l H Hin. rewrite Forall_forall in H. specialize (H _ Hin). discriminate. Qed.

Lemma dec_digits : forall n, Forall (fun c => is_digit c = true) (dec n) /\ 1 <= length (dec n) <= 10.
Proof.
  intro n. assert (H : (0 <= u32 n < 4294967296)%Z) by (unfold u32; apply Z.mod_pos_bound; lia).
  assert (E : dec n = dec (u32 n)) by (unfold dec, u32; rewrite Z.mod_mod by lia; reflexivity).
  rewrite E. destruct (dec_spec _ H) as (A & _ & B & C). split; [exact A|]. split; [exact B|].
  apply C; [lia|]. cbn. lia.
Qed.

Lemma Forall_firstn : forall A (Q : A -> Prop) n l, Forall Q l -> Forall Q (firstn n l).
Proof. intros A Q n l H. rewrite <- (firstn_skipn n l) in H. apply Forall_app in H. tauto. Qed.

Lemma snprintf6_free : forall n, ~ In NUL (snprintf6 n) /\ length (snprintf6 n) <= 5.
Proof.
  intro n. unfold snprintf6. split.
  - apply digits_free, Forall_firstn, dec_digits.
  - rewrite firstn_length. lia.
Qed.
Lemma snprintf6_exact : forall n, (0 <= n < 100000)%Z -> snprintf6 n = dec n.
Proof.
  intros n H. unfold snprintf6. apply firstn_all2. destruct (dec_spec n ltac:(lia)) as (_ & _ & _ & B).
  apply B; [lia|]. cbn. lia.
Qed.
Lemma sprintf6_ok : forall n, (0 <= n < 100000)%Z -> sprintf6 n = Ok (dec n).
Proof.
  intros n H. unfold sprintf6. destruct (dec_spec n ltac:(lia)) as (_ & _ & _ & B).
  assert (length (dec n) <= 5) by (apply B; [lia|cbn; lia]). apply Nat.leb_le in H0. rewrite H0. reflexivity.
Qed.
Lemma sprintf6_free : forall n s, sprintf6 n = Ok s -> s = dec n /\ ~ In NUL s /\ length s <= 5.
Proof.
  intros n s H. unfold sprintf6 in H. destruct (length (dec n) <=? 5) eqn:E; [|discriminate]. injection H as <-.
  splits; auto. apply digits_free, dec_digits. apply Nat.leb_le in E. assumption.
Qed.

(** Arrays *)
Lemma wr_ok : forall A (l : list A) i x, i < length l -> wr l i x = Ok (list_set l i x).
Proof. intros A l i x H. unfold wr. apply Nat.ltb_lt in H. rewrite H. reflexivity. Qed.
Lemma rd_ok' : forall A (l : list A) i, i < length l -> exists x, rd l i = Ok x /\ nth_error l i = Some x.
Proof.
  intros A l i H. unfold rd. destruct (nth_error l i) eqn:E; [eauto|]. apply nth_error_None in E. lia.
Qed.

Lemma list_set_app : forall A (l : list A) i x, i < length l -> list_set l i x = firstn i l ++ x :: skipn (S i) l.
Proof.
  intros A l. induction l as [|h t IH]; intros i x H; [cbn in H; lia|].
  destruct i as [|i]; [reflexivity|]. cbn [list_set firstn skipn app]. rewrite IH; [reflexivity|]. cbn in H. lia.
Qed.

Lemma skipn_add : forall A a b (l : list A), skipn a (skipn b l) = skipn (b + a) l.
Proof.
  intros A a b. induction b as [|b IH]; intro l; [reflexivity|]. destruct l; [now rewrite !skipn_nil|]. apply IH.
Qed.

Lemma wr_list_ok : forall l buf i, i + length l <= length buf ->
  wr_list buf i l = Ok (firstn i buf ++ l ++ skipn (i + length l) buf).
Proof.
  induction l as [|c l IH]; intros buf i H; cbn [wr_list length app] in *.
  - rewrite Nat.add_0_r, firstn_skipn. reflexivity.
  - rewrite wr_ok by lia. cbn [bind]. rewrite IH by (rewrite list_set_length; lia).
    f_equal. rewrite list_set_app by lia.
    assert (Hf : length (firstn i buf) = i) by (rewrite firstn_length; lia).
    rewrite firstn_app, Hf. replace (S i - i) with 1 by lia.
    rewrite (firstn_all2 (n := S i) (firstn i buf)) by lia. change (firstn 1 (c :: skipn (S i) buf)) with [c]. rewrite <- app_assoc. cbn [app]. f_equal. f_equal. f_equal.
    rewrite skipn_app, Hf. rewrite (skipn_all2 (firstn i buf)) by lia. cbn [app].
    replace (S i + length l - i) with (S (length l)) by lia.
    change (skipn (S (length l)) (c :: skipn (S i) buf)) with (skipn (length l) (skipn (S i) buf)).
    rewrite skipn_add. f_equal. lia.
Qed.
Lemma wr_list_bad : forall l buf i, i <= length buf -> length buf < i + length l -> wr_list buf i l = UB OutOfBounds.
Proof.
  induction l as [|c l IH]; intros buf i Hi H; cbn [wr_list length] in *; [lia|].
  destruct (Nat.eq_dec i (length buf)) as [->|].
  - unfold wr. rewrite Nat.ltb_irrefl. reflexivity.
  - rewrite wr_ok by lia. cbn [bind]. apply IH; rewrite list_set_length; lia.
Qed.
Lemma wr_list_length : forall l buf i b, wr_list buf i l = Ok b -> length b = length buf.
Proof.
  induction l as [|c l IH]; intros buf i b H; cbn [wr_list] in H; [injection H as <-; reflexivity|].
  unfold wr in H. destruct (i <? length buf); [|discriminate]. cbn [bind] in H. apply IH in H.
  rewrite H. apply list_set_length.
Qed.

(** Scanning a terminated string *)
Lemma count_char_ok : forall q a, In NUL a -> exists n, count_char q a = Ok n /\ n <= length (str_body a).
Proof.
  intros q. induction a as [|c a IH]; intros H; [destruct H|]. cbn [count_char str_body]. unfold aeqb.
  change "000"%char with NUL. destruct (Ascii.eqb_spec c NUL) as [->|Hne]; [exists 0; split; [reflexivity|cbn; lia]|].
  destruct H as [->|H]; [congruence|]. destruct (IH H) as (n & E & L). rewrite E. cbn [bind].
  eexists. split; [reflexivity|]. cbn [length]. destruct (Ascii.eqb c q); lia.
Qed.

Lemma count_char_spec : forall q a, In NUL a -> q <> NUL ->
  count_char q a = Ok (count_occ ascii_dec (str_body a) q).
Proof.
  intros q. induction a as [|c a IH]; intros H Hq; [destruct H|]. cbn [count_char str_body]. unfold aeqb.
  change "000"%char with NUL. destruct (Ascii.eqb_spec c NUL) as [->|Hne]; [reflexivity|].
  destruct H as [->|H]; [congruence|]. rewrite IH by assumption. cbn [bind count_occ].
  destruct (Ascii.eqb_spec c q), (ascii_dec c q); congruence || reflexivity.
Qed.

Lemma after_quotes_ok : forall a n i, n <= count_occ ascii_dec (str_body a) DQ ->
  exists j, after_quotes n a i = Ok j /\ i <= j <= i + length (str_body a).
Proof.
  induction a as [|c a IH]; intros n i H.
  - cbn in H. destruct n; [|lia]. exists i. cbn. split; [reflexivity|lia].
  - destruct n as [|n]; [exists i; cbn [after_quotes]; split; [reflexivity|cbn; lia]|].
    cbn [after_quotes str_body] in *. unfold aeqb. change "000"%char with NUL in *.
    destruct (Ascii.eqb_spec c NUL) as [->|Hne]; [cbn in H; lia|]. cbn [count_occ length] in *.
    destruct (Ascii.eqb_spec c DQ), (ascii_dec c DQ); try congruence.
    + destruct (IH n (S i) ltac:(lia)) as (j & E & L). exists j. split; [exact E|lia].
    + destruct (IH (S n) (S i) H) as (j & E & L). exists j. split; [exact E|lia].
Qed.

Lemma in_skipn_nul : forall a n, In NUL a -> n <= length (str_body a) -> In NUL (skipn n a).
Proof.
  intros a n H Hn. destruct (str_body_split a H) as [r E]. rewrite E. rewrite skipn_app.
  apply in_app_iff. right. replace (n - length (str_body a)) with 0 by lia. left. reflexivity.
Qed.

Lemma blank_quotes_ok : forall a, In NUL a -> exists r, blank_quotes a = Ok r /\ length r = length a /\ In NUL r.
Proof.
  induction a as [|c a IH]; intros H; [destruct H|]. cbn [blank_quotes]. unfold aeqb.
  destruct (Ascii.eqb_spec c NUL) as [->|Hne]; [eexists; splits; try reflexivity; left; reflexivity|].
  destruct H as [->|H]; [congruence|]. destruct (IH H) as (r & E & L & I). rewrite E. cbn [bind].
  eexists. splits; try reflexivity; [cbn; lia|right; assumption].
Qed.

Lemma cstring_ok : forall a, In NUL a -> cstring a = Ok (str_body a).
Proof.
  induction a as [|c a IH]; intros H; [destruct H|]. cbn [cstring str_body]. unfold aeqb. change "000"%char with NUL.
  destruct (Ascii.eqb_spec c NUL) as [->|Hne]; [reflexivity|]. destruct H as [->|H]; [congruence|].
  rewrite IH by assumption. reflexivity.
Qed.

(** The first characters up to (not including) a stop character. *)
Fixpoint upto (stop : ascii) (a : bytes) : bytes :=
  match a with [] => [] | c :: r => if Ascii.eqb c stop then [] else c :: upto stop r end.

Lemma copy_until_ok : forall stop n a, n < length a -> copy_until stop n a = Ok (firstn n (upto stop a)).
Proof.
  intros stop. induction n as [|n IH]; intros [|c a] H; cbn [length] in H; try lia; cbn [copy_until upto]; unfold aeqb.
  - destruct (Ascii.eqb c stop); reflexivity.
  - destruct (Ascii.eqb c stop); [reflexivity|]. rewrite IH by lia. reflexivity.
Qed.

Lemma count_digits_ok : forall a, In NUL a -> exists n, count_digits a = Ok n /\ n < length a /\
  Forall (fun c => is_digit c = true) (firstn n a) /\
  (forall c, nth_error a n = Some c -> is_digit c = false).
Proof.
  induction a as [|c a IH]; intros H; [destruct H|]. cbn [count_digits]. destruct (is_digit c) eqn:E.
  - destruct H as [->|H]; [discriminate|]. destruct (IH H) as (n & E1 & L & F & N). rewrite E1. cbn [bind].
    exists (S n). splits; try reflexivity; [cbn; lia| |exact N]. cbn [firstn]. constructor; assumption.
  - exists 0. splits; try reflexivity; [cbn; lia| |].
    + constructor. + intros x Hx. injection Hx as <-. assumption.
Qed.

Lemma iccid_valid_ok : forall a, In NUL a -> exists b, iccid_valid a = Ok b.
Proof.
  intros a H. unfold iccid_valid. destruct (count_digits_ok a H) as (n & E & L & _). rewrite E. cbn [bind].
  destruct ((18 <=? n) && (n <=? 22) && _) eqn:Eb; [|eauto].
  apply andb_prop in Eb as [Eb _]. apply andb_prop in Eb as [E1 _]. apply Nat.leb_le in E1.
  destruct (rd_ok' _ a 0 ltac:(lia)) as (x & -> & _). cbn [bind]. destruct (aeqb x _); [|eauto].
  destruct (rd_ok' _ a 1 ltac:(lia)) as (x1 & -> & _). cbn [bind]. eauto.
Qed.

Lemma after_commas_ok : forall a n, In NUL a -> exists o, after_commas n a = Ok o /\
  (forall s, o = Some s -> In NUL s).
Proof.
  induction a as [|c a IH]; intros n H; [destruct H|]. cbn [after_commas]. unfold aeqb.
  destruct (Ascii.eqb_spec c NUL) as [->|Hne]; [eexists; split; [reflexivity|discriminate]|].
  destruct H as [->|H]; [congruence|].
  destruct (Ascii.eqb c ","%char); [|apply IH; assumption].
  destruct n as [|[|n]]; try apply IH; try assumption;
    (eexists; split; [reflexivity|]; intros s E; injection E as <-; assumption).
Qed.
