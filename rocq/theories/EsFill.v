(** The line assembly of the Espressif driver. *)
From Coq Require Import String Ascii ZArith List Bool Arith Lia ZifyBool ZifyNat.
From Verif Require Import Base QueueSpec LineSpec SerialSpec Ring RingProofs LineRing LineRingProofs Serial SerialProofs
  SerStep TaskMacros CStr CStrProofs Dev DevProofs SimDev SimProofs SimSpec Sym DrvStep DrvCommon Espressif EsSpec.
Import ListNotations.
Local Open Scope nat_scope.
Ltac Zify.zify_post_hook ::= Z.div_mod_to_equations.

Local Notation dv := (dev essend esreply espx).

(** No byte of [L] behind its first [n] ends a line. *)
Definition se_open (t : Z) (r : esreply) (n : nat) (L : bytes) : Prop :=
  forall a b, L = a ++ b -> n < length a -> se_ends t r a = false.
(** A complete line; [n] bytes of it had been read before. *)
Definition se_whole_at (t : Z) (r : esreply) (n : nat) (L : bytes) : Prop :=
  exists body c, L = body ++ [c] /\ n <= length body /\ partial_line body /\ se_open t r n body /\ se_ends t r L = true.
Definition se_whole (d : dv) (L : bytes) : Prop := se_whole_at (typ d) (rst d) (lbfill d) L.

(** What the driver does when it has read the line [L]: it prepares for the payload. *)
Definition se_took (L : bytes) (d : dv) : dv :=
  if at_end (last L NUL) (length L) || se_colon (typ d) (rst d) L then d
  else set_rst REParseCiprecvdata d.

Lemma last_snoc : forall A (l : list A) c x, last (l ++ [c]) x = c.
Proof. induction l as [|a l IH]; intros c x; [reflexivity|]. cbn [app last]. destruct (l ++ [c]) eqn:E; [destruct l; discriminate|]. rewrite <- E. apply IH. Qed.

Lemma se_line_end_eq : forall (c : ascii) (d : dv) L, lbfill d = length L -> last L NUL = c ->
  se_line_end c d = at_end c (length L) || se_colon (typ d) (rst d) L.
Proof.
  intros c d L Hl <-. unfold se_line_end, at_end, se_colon, aeqb. rewrite Hl.
  destruct (Ascii.eqb (last L NUL) LF), (Ascii.eqb (last L NUL) GT); cbn [orb]; try reflexivity.
  destruct (rst d), (negb (typ d =? TCP)%Z), (Ascii.eqb (last L NUL) ":"), (length L =? LINE_MAX_LENGTH); reflexivity.
Qed.

Lemma se_is_header_eq : forall (c : ascii) (d : dv) L, lbfill d = length L -> last L NUL = c -> firstn (lbfill d) (lbuf d) = L ->
  length (lbuf d) = 61 -> se_is_ciprecvdata c d = Ok (se_header (rst d) L).
Proof.
  intros c d L Hl <- Hf Hlen. unfold se_is_ciprecvdata, se_header, aeqb. rewrite Hl.
  destruct (rst d); cbn [andb]; try reflexivity. destruct (14 <? length L) eqn:E; [|reflexivity]. apply Nat.ltb_lt in E. cbn [andb].
  assert (HP : forall lit, length lit = 13 -> prefixb lit (lbuf d) = prefixb lit L).
  { intros lit H. rewrite <- (firstn_skipn (lbfill d) (lbuf d)), Hf. apply prefixb_app. lia. }
  destruct (Ascii.eqb (last L NUL) ":") eqn:E1.
  - rewrite lstarts_eq by (first [lfree | (rewrite Hlen; cbn; lia)]). rewrite HP by reflexivity. cbn [andb].
    assert (Ascii.eqb (last L NUL) "," = false) as ->. { apply Ascii.eqb_eq in E1. rewrite E1. reflexivity. }
    rewrite orb_false_r. reflexivity.
  - destruct (Ascii.eqb (last L NUL) ",") eqn:E2; [|reflexivity].
    rewrite lstarts_eq by (first [lfree | (rewrite Hlen; cbn; lia)]). rewrite HP by reflexivity. reflexivity.
Qed.

Lemma se_open_snoc : forall t r n L c, se_open t r n L -> se_ends t r (L ++ [c]) = false -> se_open t r n (L ++ [c]).
Proof.
  intros t r n L c H E a b Hs Hn. destruct b as [|z b _] using rev_ind.
  - rewrite app_nil_r in Hs. subst a. exact E.
  - rewrite app_assoc in Hs. apply app_inj_tail in Hs as [Hs _]. exact (H a b Hs Hn).
Qed.

Lemma se_ends_at : forall t r L, se_ends t r L = false -> at_end (last L NUL) (length L) = false.
Proof. intros t r L H. unfold se_ends in H. apply orb_false_iff in H as [H _]. apply orb_false_iff in H as [H _]. exact H. Qed.

Lemma se_took_set : forall L n lb y d, se_took L (set_lbfill n (set_lbuf lb (set_io y d))) = set_lbfill n (set_lbuf lb (set_io y (se_took L d))).
Proof.
  intros L n lb y d. unfold se_took. change (typ (set_lbfill n (set_lbuf lb (set_io y d)))) with (typ d).
  change (rst (set_lbfill n (set_lbuf lb (set_io y d)))) with (rst d). destruct (_ || _); ddev d; reflexivity.
Qed.

Lemma se_fill_loop_spec : forall fuel (U : Prop) (d : dv) n (Q : _ -> Prop), swf d -> length (lbuf d) = 61 ->
  partial_line (firstn (lbfill d) (lbuf d)) -> n <= lbfill d -> se_open (typ d) (rst d) n (firstn (lbfill d) (lbuf d)) ->
  lbfill d <= 59 -> 60 <= lbfill d + fuel ->
  (forall y tk lb, ioeff (io d) y tk [] -> length lb = 61 ->
     partial_line (firstn (lbfill d) (lbuf d) ++ tk) -> se_open (typ d) (rst d) n (firstn (lbfill d) (lbuf d) ++ tk) -> rxav y = 0 ->
     firstn (lbfill d + length tk) lb = firstn (lbfill d) (lbuf d) ++ tk -> lbfill d + length tk <= 59 ->
     Q (false, set_lbfill (lbfill d + length tk) (set_lbuf lb (set_io y d)))) ->
  (forall y tk lb, ioeff (io d) y tk [] -> length lb = 61 -> tk <> [] ->
     se_whole_at (typ d) (rst d) n (firstn (lbfill d) (lbuf d) ++ tk) ->
     (exists r, lb = (firstn (lbfill d) (lbuf d) ++ tk) ++ NUL :: r) ->
     Q (true, set_lbfill 0 (set_lbuf lb (set_io y (se_took (firstn (lbfill d) (lbuf d) ++ tk) d))))) ->
  wp U (se_fill_loop fuel d) Q.
Proof.
  induction fuel as [|fuel IH]; intros U d n Q H Hlen Hp Hn Ho Hfill Hfuel HQ1 HQ2; cbn [se_fill_loop]; [lia|].
  apply wp_bind. apply wp_avail; [assumption|]. intros y E.
  destruct (rxav y =? 0) eqn:Ea.
  - apply Nat.eqb_eq in Ea. cbn [wp]. specialize (HQ1 y [] (lbuf d)). cbn [length] in HQ1. rewrite Nat.add_0_r, app_nil_r in HQ1.
    replace (set_io y d) with (set_lbfill (lbfill d) (set_lbuf (lbuf d) (set_io y d))) by (ddev d; reflexivity). auto.
  - apply Nat.eqb_neq in Ea. apply wp_bind.
    apply wp_getc; [exact (ioeff_wf _ _ _ _ E)|cbn [io set_io]; lia|]. intros c y2 E2 _. rewrite set_io_io. cbn [io set_io] in E2.
    pose proof (ioeff_trans _ _ _ [] [] [c] [] E E2) as E3. cbn [app] in E3.
    cbn [lbuf lbfill set_io]. rewrite wr_ok by lia. cbn [bind].
    set (lb1 := list_set (lbuf d) (lbfill d) c).
    assert (Hl1 : length lb1 = 61) by (unfold lb1; rewrite list_set_length; assumption).
    assert (Hf1 : firstn (S (lbfill d)) lb1 = firstn (lbfill d) (lbuf d) ++ [c]).
    { unfold lb1. rewrite list_set_app by lia. rewrite firstn_app, firstn_length.
      replace (S (lbfill d) - Nat.min (lbfill d) (length (lbuf d))) with 1 by lia.
      rewrite firstn_all2 by (rewrite firstn_length; lia). reflexivity. }
    assert (HL : length (firstn (lbfill d) (lbuf d)) = lbfill d) by (rewrite firstn_length; lia).
    set (d1 := set_lbfill (S (lbfill d)) (set_lbuf lb1 (set_io y2 d))).
    set (L1 := firstn (lbfill d) (lbuf d) ++ [c]) in *.
    assert (HL1 : lbfill d1 = length L1) by (unfold L1, d1; rewrite app_length, HL; cbn; lia).
    assert (Hla : last L1 NUL = c) by apply last_snoc.
    rewrite (se_line_end_eq c d1 L1 HL1 Hla). change (typ d1) with (typ d). change (rst d1) with (rst d).
    assert (Hw : se_ends (typ d) (rst d) L1 = true -> se_whole_at (typ d) (rst d) n L1).
    { intro Ee. exists (firstn (lbfill d) (lbuf d)), c. splits; auto. lia. }
    assert (Hnul : wr lb1 (S (lbfill d)) NUL = Ok (list_set lb1 (S (lbfill d)) NUL)) by (apply wr_ok; lia).
    set (lb2 := list_set lb1 (S (lbfill d)) NUL) in *.
    assert (Hl2 : length lb2 = 61) by (unfold lb2; rewrite list_set_length; assumption).
    assert (Hr2 : exists r, lb2 = L1 ++ NUL :: r).
    { exists (skipn (S (S (lbfill d))) lb1). unfold lb2. rewrite list_set_app by lia. rewrite Hf1. reflexivity. }
    pose proof (HQ2 y2 [c] lb2 E3 Hl2 ltac:(discriminate)) as HQ3. fold L1 in HQ3. unfold se_took in HQ3. rewrite Hla in HQ3.
    destruct (at_end c (length L1) || se_colon (typ d) (rst d) L1) eqn:Ee.
    + change (lbuf d1) with lb1. change (lbfill d1) with (S (lbfill d)). rewrite Hnul. cbn [bind wp].
      replace (set_lbfill 0 (set_lbuf lb2 d1)) with (set_lbfill 0 (set_lbuf lb2 (set_io y2 d))) by (unfold d1; ddev d; reflexivity).
      apply HQ3; [|exact Hr2]. apply Hw. unfold se_ends. rewrite Hla, Ee. reflexivity.
    + rewrite (se_is_header_eq c d1 L1 HL1 Hla Hf1 Hl1). cbn [bind]. change (rst d1) with (rst d).
      destruct (se_header (rst d) L1) eqn:Eh.
      * change (lbuf d1) with lb1. change (lbfill d1) with (S (lbfill d)). rewrite Hnul. cbn [bind wp].
        replace (set_lbfill 0 (set_lbuf lb2 (set_rst REParseCiprecvdata d1))) with
          (set_lbfill 0 (set_lbuf lb2 (set_io y2 (set_rst REParseCiprecvdata d)))) by (unfold d1; ddev d; reflexivity).
        apply HQ3; [|exact Hr2]. apply Hw. unfold se_ends. rewrite Hla, Ee, Eh. reflexivity.
      * assert (En : se_ends (typ d) (rst d) L1 = false) by (unfold se_ends; rewrite Hla, Ee, Eh; reflexivity).
        assert (Hp2 : partial_line L1).
        { apply partial_snoc; [assumption|]. pose proof (se_ends_at _ _ _ En) as X. rewrite Hla in X. unfold L1 in X.
          rewrite app_length in X. cbn [length] in X. rewrite Nat.add_1_r in X. exact X. }
        assert (Ho2 : se_open (typ d) (rst d) n L1) by (apply se_open_snoc; assumption).
        pose proof (partial_short _ Hp2) as Hs2. unfold L1 in Hs2. rewrite app_length, HL in Hs2. cbn [length] in Hs2.
        apply (IH U d1 n); unfold swf, d1; cbn [io set_io lbuf lbfill set_lbfill set_lbuf typ rst]; auto; try lia.
        -- exact (ioeff_wf _ _ _ _ E3).
        -- rewrite Hf1. assumption.
        -- rewrite Hf1. assumption.
        -- intros y3 tk lb E4 Hlb Hpl Hop Hrx Hfn Hle.
          replace (set_lbfill _ (set_lbuf lb (set_io y3 _))) with
            (set_lbfill (lbfill d + length (c :: tk)) (set_lbuf lb (set_io y3 d))).
          2:{ ddev d; cbn [set_lbfill set_lbuf set_io lbfill]. replace (S lf0 + length tk) with (lf0 + length (c :: tk)) by (cbn [length]; lia). reflexivity. }
          rewrite Hf1 in Hpl, Hfn, Hop. unfold L1 in Hpl, Hfn, Hop. rewrite <- app_assoc in Hpl, Hfn, Hop. cbn [app] in Hpl, Hfn, Hop.
          apply HQ1; auto.
          ++ exact (ioeff_trans _ _ _ [c] [] tk [] E3 E4).
          ++ rewrite <- Hfn. f_equal. cbn [length]. lia.
          ++ cbn [length]. lia.
        -- intros y3 tk lb E4 Hlb Hne Hw3 [r Hr].
          rewrite Hf1 in Hw3, Hr |- *. unfold L1 in Hw3, Hr |- *. rewrite <- app_assoc in Hw3, Hr |- *. cbn [app] in Hw3, Hr |- *.
          match goal with |- Q (true, ?x) => replace x with (set_lbfill 0 (set_lbuf lb (set_io y3 (se_took (firstn (lbfill d) (lbuf d) ++ c :: tk) d)))) end.
          2:{ rewrite se_took_set. generalize (se_took (firstn (lbfill d) (lbuf d) ++ c :: tk) d). intro d2. destruct d2. reflexivity. }
          apply (HQ2 y3 (c :: tk) lb); auto; try discriminate.
          ++ exact (ioeff_trans _ _ _ [c] [] tk [] E3 E4).
          ++ exists r. rewrite Hr. rewrite <- ?app_assoc. reflexivity.
Qed.

(** fillLineBuffer() *)
Definition se_fill_res (d : dv) (p : bool * dv) : Prop :=
  (fst p = false /\ fill_res d p) \/
  (exists y tk lb r, p = (true, set_lbfill 0 (set_lbuf lb (set_io y (se_took (pending d ++ tk) d)))) /\
     fLine (fl d) = true /\ ioeff (io d) y tk [] /\ length lb = 61 /\ tk <> [] /\ se_whole d (pending d ++ tk) /\
     lb = (pending d ++ tk) ++ NUL :: r).

Lemma se_fill_ok : forall d : dv, swf d -> line_ok d -> wp False (se_fill d) (se_fill_res d).
Proof.
  intros d Hs (L1 & L2 & L3). unfold se_fill. destruct (fLine (fl d)) eqn:Ef.
  - apply (se_fill_loop_spec _ _ d (lbfill d)); auto; try (unfold LINE_MAX_LENGTH; lia).
    + intros a b E Hn. exfalso. apply (f_equal (@length _)) in E. rewrite app_length, firstn_length in E. lia.
    + intros y tk lb A1 A2 A3 _ A5 A6 A7. left. split; [reflexivity|]. right. left. exists y, tk, lb. splits; auto.
    + intros y tk lb A1 A2 A3 A4 [r A5]. right. exists y, tk, lb, r. splits; auto.
  - cbn [wp]. left. split; [reflexivity|]. left. auto.
Qed.

Lemma se_whole_short : forall t r n L, se_whole_at t r n L -> 1 <= length L <= 60.
Proof.
  intros t r n L (body & c & -> & _ & Hp & _). rewrite app_length. cbn [length]. pose proof (partial_short _ Hp). lia.
Qed.

(** A complete line in the buffer: a text one character longer than "+IPD" or
    "+CIPRECVDATA", if it begins so (these two do not end a line). *)
Definition nul_after (lit lb : bytes) : Prop := prefixb lit lb = true -> In NUL (skipn (S (length lit)) lb).
Definition eparsed (lb : bytes) : Prop := parsed lb /\ nul_after (bs "+IPD") lb /\ nul_after (bs "+CIPRECVDATA") lb.

Lemma se_whole_after : forall t r0 n (L r lit : bytes) c, se_whole_at t r0 n L -> ~ In NUL (lit ++ [c]) ->
  forallb (fun x => negb (Ascii.eqb c x)) [LF; GT; ":"%char; ","%char] = true -> length (lit ++ [c]) < 60 ->
  nul_after (lit ++ [c]) (L ++ NUL :: r).
Proof.
  intros t r0 n L r lit c (body & e & E & _ & _ & _ & He) Hf Hc Hlen Hp. rewrite prefixb_line in Hp by assumption.
  apply prefixb_spec in Hp as [u Ht].
  assert (length (lit ++ [c]) < length L).
  { rewrite Ht, (app_length (lit ++ [c])). destruct u as [|x u]; [|cbn; lia]. exfalso. rewrite app_nil_r in Ht.
    rewrite Ht in E. apply app_inj_tail in E as [_ E]. subst e. unfold se_ends, at_end, se_colon, se_header, aeqb in He. rewrite Ht, last_snoc in He.
    cbn [forallb] in Hc. rewrite !andb_true_iff, !negb_true_iff in Hc. destruct Hc as (C1 & C2 & C3 & C4 & _).
    rewrite C1, C2, C3, C4 in He. replace (length (lit ++ [c]) =? LINE_MAX_LENGTH) with false in He by (symmetry; apply Nat.eqb_neq; unfold LINE_MAX_LENGTH; lia).
    cbn in He. rewrite !andb_false_r in He. discriminate. }
  rewrite skipn_app. apply in_or_app. right. replace (S (length (lit ++ [c])) - length L) with 0 by lia. left. reflexivity.
Qed.

Lemma se_whole_parsed : forall t r0 n (L r : bytes), se_whole_at t r0 n L -> length (L ++ NUL :: r) = 61 -> eparsed (L ++ NUL :: r).
Proof.
  intros t r0 n L r Hw Hl. split; [exact (fill_parsed L r _ eq_refl Hl)|]. split.
  - apply (se_whole_after t r0 n L r (bs "+IP") "D"%char); try assumption; first [lfree | reflexivity | (cbn; lia)].
  - apply (se_whole_after t r0 n L r (bs "+CIPRECVDAT") "A"%char); try assumption; first [lfree | reflexivity | (cbn; lia)].
Qed.

(** Steps that read no line do not depend on what a line is. *)
Lemma istep_noline : forall SS RS X ins w1 w2 (part : dev SS RS X -> bytes -> Prop) C1 C2 line d ret d',
  istep ins w1 part C1 (fun _ => False) d ret d' -> istep ins w2 part C2 line d ret d'.
Proof.
  intros SS RS X ins w1 w2 part C1 C2 line d ret d' (a & Ha & Hl). exists a. destruct Ha.
  - split; [eapply il_more; eassumption|discriminate].
  - split; [eapply il_discard; eassumption|discriminate].
  - destruct (Hl _ _ eq_refl).
Qed.
