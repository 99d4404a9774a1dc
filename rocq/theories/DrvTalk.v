(** Sessions that are dialogues: a check by computation that a given script of
    calls and interrupts is a dialogue, for the examples. *)
From Coq Require Import String Ascii ZArith List Bool Arith Lia ZifyBool ZifyNat.
From Verif Require Import Base QueueSpec LineSpec SerialSpec Ring RingProofs LineRing LineRingProofs Serial SerialProofs
  SerStep TaskMacros CStr CStrProofs Dev DevProofs SimDev SimProofs Sym DrvStep DrvCommon DrvRun DrvHand.
Import ListNotations.
Local Open Scope nat_scope.
Ltac Zify.zify_post_hook ::= Z.div_mod_to_equations.

(** One line of reply: it ends with '\n' or '>' and has neither before. *)
Definition inner (L : bytes) : bool := (length L <? LINE_MAX_LENGTH) && forallb (fun c => negb (aeqb c LF || aeqb c GT)) L.
Definition one_line (L : bytes) : bool := inner (removelast L) && (aeqb (last L NUL) LF || aeqb (last L NUL) GT).

Lemma inner_at : forall a x b, inner (a ++ x :: b) = true -> at_end x (S (length a)) = false.
Proof.
  intros a x b H. unfold inner in H. apply andb_true_iff in H as [H1 H2]. apply Nat.ltb_lt in H1. rewrite forallb_app in H2. apply andb_true_iff in H2 as [_ H2].
  cbn [forallb] in H2. apply andb_true_iff in H2 as [H2 _]. unfold at_end. apply negb_true_iff in H2. rewrite H2. cbn [orb]. apply Nat.eqb_neq. rewrite app_length in H1. cbn [length] in H1. lia.
Qed.
Lemma one_line_split : forall L, one_line L = true -> exists b c, L = b ++ [c] /\ inner b = true /\ (c = LF \/ c = GT).
Proof.
  intros L H. unfold one_line in H. apply andb_true_iff in H as [H1 H2]. destruct L as [|c L]; [discriminate H2|].
  exists (removelast (c :: L)), (last (c :: L) NUL). split; [apply app_removelast_last; discriminate|]. split; [exact H1|].
  apply orb_true_iff in H2 as [H2|H2]; apply Ascii.eqb_eq in H2; auto.
Qed.
(** A beginning of such a line that ends a line is all of it. *)
Lemma one_line_whole : forall L M r, one_line L = true -> L = M ++ r -> M <> [] -> at_end (last M NUL) (length M) = true -> r = [].
Proof.
  intros L M r H E Hn Ha. apply one_line_split in H as (b & c & -> & Hb & _). destruct r as [|z r _] using rev_ind; [reflexivity|]. exfalso.
  rewrite app_assoc in E. apply app_inj_tail in E as [-> _].
  rewrite (app_removelast_last NUL Hn), <- app_assoc in Hb. cbn [app] in Hb. apply inner_at in Hb.
  replace (S (length (removelast M))) with (length M) in Hb; [congruence|].
  rewrite (app_removelast_last NUL Hn) at 1. rewrite app_length. cbn [length]. lia.
Qed.
Lemma one_line_partial : forall L, one_line L = true -> ~ partial_line L.
Proof. intros L H K. apply one_line_split in H as (b & c & -> & _ & Hc). specialize (K b c [] eq_refl). destruct Hc; subst c; discriminate K. Qed.

Section Talk.
Context {SS RS X XO : Type}.
Notation dv := (dev SS RS X).
Notation ent := (@entry XO).
Variable D : driver SS RS X XO.
Variable Sh : shape SS RS X.
Variable Inv : dv -> Prop.
Variable goodx : XO -> Prop.
Notation step := (estep D Sh Inv goodx).

(** Lines that end where a '\n' or '>' is. *)
Definition plain_lines (d : dv) : Prop :=
  (forall L, sh_whole Sh d L -> L <> [] /\ at_end (last L NUL) (length L) = true) /\ (forall L, sh_part Sh d L -> partial_line L).

(** A run() that takes the end of a line hears the line. *)
Lemma step_hears : forall d e d' oo, step d e d' -> e_op e = OpRun oo -> isopen d = true -> fLock (fl d) = false -> fReset (fl d) = false ->
  fDisc (fl d) = false -> toRead d = 0%Z -> plain_lines (during (e_sch e) d) -> one_line (pending d ++ taken (e_ev e)) = true -> taken (e_ev e) <> [] ->
  exists tk, In (aLine tk (pending d ++ taken (e_ev e))) (e_acts e).
Proof.
  intros d e d' oo (_ & _ & _ & _ & _ & _ & Hio & _ & d1 & Hc & _) Eo G1 G2 G3 G4 G5 [W1 W2] Ho Hn.
  unfold call_io in Hio. unfold callrel in Hc. rewrite Eo in Hio, Hc. destruct Hio as [Ht _]. destruct Hc as [Hr _].
  change (pending d) with (pending (during (e_sch e) d)) in *. change (isopen (during (e_sch e) d) = true) in G1. change (fLock (fl (during (e_sch e) d)) = false) in G2.
  change (fReset (fl (during (e_sch e) d)) = false) in G3. change (fDisc (fl (during (e_sch e) d)) = false) in G4. change (toRead (during (e_sch e) d) = 0%Z) in G5.
  set (x := during (e_sch e) d) in *. clearbody x. set (l0 := e_acts e) in *. clearbody l0.
  inversion Hr as [E0 Eoo E1 E2|E0 Eoo E1 E2|E0 El E1 E2|l x1 (R1 & R2 & R3) Hf Hp E1 E2|l x1 a x2 (R1 & R2 & R3) Hp Hi Hx E1 E2|l x1 a x2 b x3 (R1 & R2 & R3) Hp Hi Hx Hol Hox E1 E2]; subst.
  - congruence.
  - congruence.
  - contradiction Hn.
  - destruct Hp as [(F & K1 & K2)|(F & q & E & Hq)]; [congruence|congruence].
  - destruct Hp as [(F & -> & ->)|(F & q & -> & _)]; [|congruence]. cbn [app] in *.
    unfold acts_taken in Ht. cbn [map concat] in Ht. rewrite app_nil_r in Ht.
    inversion Hi; subst; cbn [act_taken] in Ht; try congruence.
    eexists. left. rewrite Ht. reflexivity.
  - destruct Hp as [(F & -> & ->)|(F & q & -> & _)]; [|congruence]. cbn [app] in *.
    unfold acts_taken in Ht. cbn [map concat] in Ht. rewrite app_nil_r in Ht.
    inversion Hi; subst; cbn [act_taken] in Ht; try congruence.
    + exfalso. assert (Hb : act_taken b = []) by (inversion Hol; subst; try reflexivity; exfalso; lia). rewrite Hb, app_nil_r in Ht. rewrite Ht in Ho.
      apply (one_line_partial _ Ho). apply W2. congruence.
    + destruct (W1 _ H2) as [V1 V2]. rewrite Ht, app_assoc in Ho.
      assert (Hb : act_taken b = []) by exact (one_line_whole _ _ _ Ho eq_refl V1 V2). rewrite Hb, app_nil_r in Ht. rewrite Ht. eexists. left. reflexivity.
Qed.
Lemma step_deaf : forall d e d' oo, step d e d' -> e_op e = OpRun oo -> taken (e_ev e) = [] -> hears None e.
Proof.
  intros d e d' oo (_ & _ & _ & _ & _ & _ & Hio & _ & d1 & Hc & _) Eo Hn tk L Hin.
  unfold call_io in Hio. unfold callrel in Hc. rewrite Eo in Hio, Hc. destruct Hio as [Ht _]. destruct Hc as [Hr _]. rewrite Hn in Ht. set (l0 := e_acts e) in *. clearbody l0.
  assert (Hz : tk = []).
  { apply in_split in Hin as (l1 & l2 & E). rewrite E in Ht. unfold acts_taken in Ht. rewrite map_app, concat_app in Ht. cbn [map concat act_taken] in Ht.
    symmetry in Ht. apply app_eq_nil in Ht as [_ Ht]. apply app_eq_nil in Ht as [Ht _]. exact Ht. }
  subst tk. inversion Hr as [E0 Eoo E1 E2|E0 Eoo E1 E2|E0 El E1 E2|l x1 (R1 & R2 & R3) Hf Hp E1 E2|l x1 a x2 (R1 & R2 & R3) Hp Hi Hx E1 E2|l x1 a x2 b x3 (R1 & R2 & R3) Hp Hi Hx Hol Hox E1 E2]; subst; try contradiction Hin.
  - destruct Hp as [(F & -> & ->)|(F & q & -> & _)]; [contradiction Hin|]. destruct Hin as [Hin|[]]. discriminate Hin.
  - assert (Hin' : In (aLine [] L) [a]). { destruct Hp as [(F & -> & ->)|(F & q & -> & _)]; [exact Hin|]. destruct Hin as [Hin|Hin]; [discriminate Hin|exact Hin]. }
    destruct Hin' as [->|[]]. inversion Hi; subst. contradiction.
  - assert (Hin' : In (aLine [] L) [a; b]). { destruct Hp as [(F & -> & ->)|(F & q & -> & _)]; [exact Hin|]. destruct Hin as [Hin|Hin]; [discriminate Hin|exact Hin]. }
    destruct Hin' as [->|[->|[]]]; [inversion Hi; subst; contradiction|inversion Hol].
Qed.

(** A run() that takes no end of a line hears nothing. *)
Lemma step_mute : forall d e d' oo, step d e d' -> e_op e = OpRun oo -> fReset (fl d) = false -> plain_lines (during (e_sch e) d) ->
  inner (pending d ++ taken (e_ev e)) = true -> hears None e.
Proof.
  intros d e d' oo (_ & _ & _ & _ & _ & _ & Hio & _ & d1 & Hc & _) Eo G4 [W1 _] Ho tk L Hin.
  unfold call_io in Hio. unfold callrel in Hc. rewrite Eo in Hio, Hc. destruct Hio as [Ht _]. destruct Hc as [Hr _].
  change (pending d) with (pending (during (e_sch e) d)) in *. change (fReset (fl (during (e_sch e) d)) = false) in G4.
  set (x := during (e_sch e) d) in *. clearbody x. set (l0 := e_acts e) in *. clearbody l0.
  assert (Hno : forall L r, sh_whole Sh x L -> pending x ++ taken (e_ev e) = L ++ r -> False).
  { intros M r HM E. destruct (W1 _ HM) as [V1 V2]. rewrite E in Ho. rewrite (app_removelast_last NUL V1), <- app_assoc in Ho. cbn [app] in Ho. apply inner_at in Ho.
    replace (S (length (removelast M))) with (length M) in Ho; [congruence|]. rewrite (app_removelast_last NUL V1) at 1. rewrite app_length. cbn [length]. lia. }
  inversion Hr as [E0 Eoo E1 E2|E0 Eoo E1 E2|E0 El E1 E2|l x1 (R1 & R2 & R3) Hf Hp E1 E2|l x1 a x2 (R1 & R2 & R3) Hp Hi Hx E1 E2|l x1 a x2 b x3 (R1 & R2 & R3) Hp Hi Hx Hol Hox E1 E2]; subst; try contradiction Hin.
  - destruct Hp as [(F & -> & ->)|(F & q & -> & _)]; [contradiction Hin|]. destruct Hin as [Hin|[]]. discriminate Hin.
  - destruct Hp as [(F & -> & ->)|(F & q & -> & _)]; [|congruence]. cbn [app] in *. destruct Hin as [->|[]].
    unfold acts_taken in Ht. cbn [map concat act_taken] in Ht. inversion Hi; subst. match goal with W : sh_whole Sh x _ |- _ => apply (Hno _ [] W) end. rewrite Ht, !app_nil_r. reflexivity.
  - destruct Hp as [(F & -> & ->)|(F & q & -> & _)]; [|congruence]. cbn [app] in *. destruct Hin as [->|[->|[]]]; [|inversion Hol].
    unfold acts_taken in Ht. cbn [map concat act_taken] in Ht. inversion Hi; subst. match goal with W : sh_whole Sh x _ |- _ => apply (Hno _ (act_taken b) W) end. rewrite Ht, app_nil_r, <- app_assoc. reflexivity.
Qed.

(** The check.  [q]: which lines answer; everything else must be noise. *)
Variable noise : bytes -> Prop.
Variable noiseb : bytes -> bool.
Hypothesis noiseb_ok : forall L, noiseb L = true -> noise L.
Variable plainb : dv -> bool.
Hypothesis plainb_ok : forall d, plainb d = true -> plain_lines d.

Definition said (ps : list (option (bytes -> bool))) : list (option (bytes -> Prop)) := map (option_map (fun f L => f L = true)) ps.

Definition listens (d : dv) : bool :=
  isopen d && negb (fLock (fl d)) && negb (fReset (fl d)) && negb (fDisc (fl d)) && (toRead d =? 0)%Z && plainb d.

Fixpoint talks (N : nat) (ps : list (option (bytes -> bool))) (h : list (dop XO * list (list isr))) (d : dv) : bool :=
  match h with
  | [] => match ps with [] => true | _ => false end
  | (o, sch) :: h =>
      match d_step D o sch d with
      | UB _ => false
      | Ok (_, ev, d1) =>
          if looks o then talks N ps h d1
          else match o, ps with
               | OpRun _, p :: ps' =>
                   (txav (io d) + N <=? txsz (io d)) &&
                   (if (length (taken ev) =? 0) || (negb (fReset (fl d)) && plainb (during sch d) && inner (pending d ++ taken ev)) then match p with None => talks N ps' h d1 | Some _ => talks N ps h d1 end
                    else let L := pending d ++ taken ev in
                         listens (during sch d) && one_line L &&
                         match p with
                         | None => false
                         | Some q => if q L then talks N ps' h d1 else noiseb L && talks N ps h d1
                         end)
               | _, _ => false
               end
      end
  end.

Lemma talks_dialogue : forall N tr d d', hist D Sh Inv goodx d tr d' -> forall ps, talks N ps (map (fun e => (e_op e, e_sch e)) tr) d = true ->
  dialogue step noise N (said ps) d tr d'.
Proof.
  intros N tr d d' H. induction H as [d|d e d1 tr d2 Hs Hh IH]; intros ps Ht; cbn [map talks] in Ht.
  - destruct ps; [constructor|discriminate].
  - pose proof Hs as (_ & _ & _ & E & _). rewrite E in Ht. destruct (looks (e_op e)) eqn:El; [eapply dl_look; [exact Hs|exact El|apply IH; exact Ht]|].
    destruct (e_op e) eqn:Eo; try discriminate Ht. rename open_ok into oo. destruct ps as [|p ps]; [discriminate Ht|].
    apply andb_true_iff in Ht as [Hr Ht]. apply Nat.leb_le in Hr. assert (HR : roomy N d e) by (split; [exists oo; exact Eo|exact Hr]).
    destruct ((length (taken (e_ev e)) =? 0) || _) eqn:Ez.
    + assert (Hd : hears None e).
      { apply orb_true_iff in Ez as [Ez|Ez]; [apply Nat.eqb_eq, length_zero_iff_nil in Ez; exact (step_deaf d e d1 oo Hs Eo Ez)|].
        apply andb_true_iff in Ez as [Ez E3]. apply andb_true_iff in Ez as [E1 E2]. apply negb_true_iff in E1.
        exact (step_mute d e d1 oo Hs Eo E1 (plainb_ok _ E2) E3). }
      destruct p as [q|]; cbn [said map option_map].
      * eapply dl_idle; [exact Hs|exact HR|left; exact Hd|exact (IH _ Ht)].
      * eapply dl_hear; [exact Hs|exact HR|exact Hd|exact (IH _ Ht)].
    + apply orb_false_iff in Ez as [Ez _]. apply Nat.eqb_neq in Ez. apply andb_true_iff in Ht as [Hl Ht]. apply andb_true_iff in Hl as [Hl Ho].
      unfold listens in Hl. repeat (apply andb_true_iff in Hl as [Hl ?]). repeat match goal with H : negb _ = true |- _ => apply negb_true_iff in H end.
      match goal with H : (_ =? _)%Z = true |- _ => apply Z.eqb_eq in H end.
      destruct (step_hears d e d1 oo Hs Eo) as [tk Hin]; try assumption; [apply plainb_ok; assumption|intro K; rewrite K in Ez; apply Ez; reflexivity|].
      destruct p as [q|]; [|discriminate Ht]. cbn [said map option_map]. destruct (q (pending d ++ taken (e_ev e))) eqn:Eq.
      * eapply dl_hear; [exact Hs|exact HR| |exact (IH _ Ht)]. exists tk, (pending d ++ taken (e_ev e)). split; [exact Hin|exact Eq].
      * apply andb_true_iff in Ht as [Hnb Ht]. eapply dl_idle; [exact Hs|exact HR| |exact (IH _ Ht)]. right. exists tk, (pending d ++ taken (e_ev e)).
        split; [exact Hin|]. split; [apply noiseb_ok; exact Hnb|congruence].
Qed.

(** The check says what the calls do, so it can be made by running them. *)
Lemma hist_runs : forall tr d d', hist D Sh Inv goodx d tr d' ->
  d_run D d (map (fun e => (e_op e, e_sch e)) tr) = Ok (d', map (fun e => (e_out e, e_ev e)) tr).
Proof.
  intros tr d d' H. induction H as [d|d e d1 tr d2 Hs Hh IH]; [reflexivity|]. pose proof Hs as (_ & _ & _ & E & _).
  cbn [map d_run]. rewrite E. cbn [bind]. rewrite IH. reflexivity.
Qed.
(** A history in parts. *)
Lemma hist_part : forall h1 h2 tr d d', hist D Sh Inv goodx d tr d' -> map (fun e => (e_op e, e_sch e)) tr = h1 ++ h2 ->
  exists tr1 tr2 d1 outs, tr = tr1 ++ tr2 /\ map (fun e => (e_op e, e_sch e)) tr1 = h1 /\ map (fun e => (e_op e, e_sch e)) tr2 = h2 /\
    hist D Sh Inv goodx d tr1 d1 /\ hist D Sh Inv goodx d1 tr2 d' /\ d_run D d h1 = Ok (d1, outs).
Proof.
  intros h1 h2 tr d d' H E. apply map_eq_app in E as (tr1 & tr2 & -> & E1 & E2). destruct (hist_split _ _ _ _ _ _ _ _ H) as (d1 & H1 & H2).
  pose proof (hist_runs _ _ _ H1) as R. rewrite E1 in R. exists tr1, tr2, d1, (map (fun e => (e_out e, e_ev e)) tr1). splits; auto.
Qed.
Lemma hist_one : forall o h tr d d', hist D Sh Inv goodx d tr d' -> map (fun e => (e_op e, e_sch e)) tr = o :: h ->
  exists e tr2 d1, tr = e :: tr2 /\ e_op e = fst o /\ e_sch e = snd o /\ map (fun e => (e_op e, e_sch e)) tr2 = h /\ step d e d1 /\ hist D Sh Inv goodx d1 tr2 d' /\
    d_step D (fst o) (snd o) d = Ok (e_out e, e_ev e, d1).
Proof.
  intros o h tr d d' H E. destruct H as [d|d e d1 tr d2 Hs Hh]; [discriminate E|]. cbn [map] in E. injection E as <- E2. exists e, tr, d1.
  pose proof Hs as (_ & _ & _ & E & _). splits; auto.
Qed.
End Talk.

(** Replies that are the same. *)
Definition same_reply (p p' : option (bytes -> Prop)) : Prop :=
  match p, p' with None, None => True | Some q, Some q' => forall L, q L <-> q' L | _, _ => False end.
Lemma dialogue_same : forall SS RS X XO (step : dev SS RS X -> @entry XO -> dev SS RS X -> Prop) noise N ps d tr d', dialogue step noise N ps d tr d' ->
  forall ps', Forall2 same_reply ps ps' -> dialogue step noise N ps' d tr d'.
Proof.
  intros SS RS X XO step noise N ps d tr d' H.
  induction H as [d|ps d e d1 tr d' Hs Hl Hd IH|q ps d e d1 tr d' Hs Hr Ha Hd IH|p ps d e d1 tr d' Hs Hr Hh Hd IH]; intros ps' HF.
  - inversion HF; subst. constructor.
  - eapply dl_look; [exact Hs|exact Hl|apply IH; exact HF].
  - inversion HF as [|? q' ? l' Hq HF']; subst. destruct q' as [q'|]; [|contradiction Hq]. cbn [same_reply] in Hq. eapply dl_idle; [exact Hs|exact Hr| |apply IH; exact HF].
    destruct Ha as [Ha|(tk & L & Hi & Hn & Hx)]; [left; exact Ha|right; exists tk, L; split; [exact Hi|]; split; [exact Hn|]]. intro K. apply Hx, Hq, K.
  - inversion HF as [|? q' ? l' Hq HF']; subst. eapply dl_hear; [exact Hs|exact Hr| |apply IH; exact HF'].
    destruct p as [q|], q' as [q'|]; try contradiction Hq; [|exact Hh]. destruct Hh as (tk & L & Hi & Hx). exists tk, L. split; [exact Hi|]. apply Hq, Hx.
Qed.
