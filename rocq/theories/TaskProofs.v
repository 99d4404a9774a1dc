(** Proofs about TaskMacros.v. *)
From Coq Require Import ZArith List Bool Lia Arith.
From Verif Require Import Base TaskSpec TaskMacros.
Import ListNotations.
Open Scope Z_scope.
Ltac Zify.zify_post_hook ::= Z.div_mod_to_equations.

Lemma macros_app : forall W (p q : list (instr W)), macros (p ++ q) = (macros p + macros q)%nat.
Proof. induction p; intros; cbn; [reflexivity|rewrite IHp; lia]. Qed.

Lemma macros_firstn : forall W (p : list (instr W)) n i, nth_error p n = Some i -> is_macro i = true ->
  (macros (firstn n p) < macros p)%nat.
Proof.
  intros W p n i H M. apply nth_error_split in H. destruct H as (l1 & l2 & -> & <-).
  rewrite firstn_app, firstn_all, Nat.sub_diag, app_nil_r, macros_app. cbn. rewrite M. lia.
Qed.

Lemma find_label_ge : forall W (p : list (instr W)) l n pc, find_label l p n = Some pc -> l <= n < l + Z.of_nat (macros p).
Proof.
  induction p as [|i p IH]; intros l n pc H; cbn [find_label macros] in *; [discriminate|].
  destruct (is_macro i).
  - destruct (Z.eqb_spec l n); [lia|]. destruct (find_label (l + 1) p n) as [x|] eqn:E; [|discriminate]. apply IH in E. lia.
  - destruct (find_label l p n) as [x|] eqn:E; [|discriminate]. apply IH in E. lia.
Qed.

Lemma find_label_lab : forall W (p : list (instr W)) l n i, nth_error p n = Some i -> is_macro i = true ->
  find_label l p (l + Z.of_nat (macros (firstn n p))) = Some n.
Proof.
  induction p as [|j p IH]; intros l n i H M; [destruct n; discriminate|].
  destruct n as [|n]; cbn [nth_error firstn macros find_label] in *.
  - injection H as ->. rewrite M. cbn [macros Z.of_nat]. rewrite Z.add_0_r, Z.eqb_refl. reflexivity.
  - destruct (is_macro j).
    + destruct (Z.eqb_spec l (l + Z.of_nat (1 + macros (firstn n p)))); [lia|].
      replace (l + Z.of_nat (1 + macros (firstn n p))) with (l + 1 + Z.of_nat (macros (firstn n p))) by lia.
      rewrite (IH _ _ _ H M). reflexivity.
    + cbn [Nat.add]. rewrite (IH _ _ _ H M). reflexivity.
Qed.

Definition is_timed {W} (i : instr W) : bool :=
  match i with ICondTimeout _ _ | ICondTimeoutDelay _ _ _ => true | _ => false end.

(** The static entrypoint and the object represent the thread. *)
Definition repr {W} (base : Z) (prog : list (instr W)) (ep : Z) (o : tobj) (th : thread) : Prop :=
  match th with
  | TReady pc => pc = O /\ ep = base /\ trunning o = false
  | TBlocked pc start =>
      exists i, nth_error prog pc = Some i /\ is_macro i = true /\ ep = lab base prog pc /\
        (if is_timed i then trunning o = true /\ ttimeout o = Some start else trunning o = false)
  | TDone => ep = last_label base prog /\ trunning o = false
  end.

Section Fixed.
Context {W : Type} (base : Z) (prog : list (instr W)).
Hypothesis Hbase : 0 <= base.
Hypothesis Hfit : last_label base prog < 256.

Lemma lab_fits : forall pc i, nth_error prog pc = Some i -> is_macro i = true ->
  u8 (lab base prog pc) = lab base prog pc.
Proof. intros pc i H M. pose proof (macros_firstn _ _ _ _ H M). unfold last_label in Hfit. unfold u8, lab. lia. Qed.

Lemma last_fits : u8 (last_label base prog) = last_label base prog.
Proof. unfold u8. unfold last_label in *. lia. Qed.

Definition rel_out (now : Z) (x : res (Z * tobj * W)) (y : res (thread * W * Z)) : Prop :=
  match x, y with
  | Ok (ep, o, w), Ok (th, w', d) => w = w' /\ tdelay o = d /\ repr base prog ep o th
  | UB u, UB v => u = v
  | _, _ => False
  end.

Lemma exec_th : forall fuel pc ep o w now, tlast o = now -> trunning o = false ->
  rel_out now (exec fuel base prog true pc ep o w) (th_exec fuel prog now pc w (tdelay o)).
Proof.
  induction fuel as [|fuel IH]; intros pc ep o w now Hn Hr; cbn [exec th_exec]; [reflexivity|].
  destruct (nth_error prog pc) as [i|] eqn:E.
  - destruct i as [f|t|c t| |d|c|c d|c t|c t d]; try (apply IH; assumption).
    + cbn [rel_out]. split; [reflexivity|]. split; [reflexivity|]. exists IYield. split; [exact E|]. split; [reflexivity|].
      split; [apply (lab_fits _ _ E eq_refl)|exact Hr].
    + cbn [rel_out]. split; [reflexivity|]. split; [reflexivity|]. exists (IDelay d). split; [exact E|]. split; [reflexivity|].
      split; [apply (lab_fits _ _ E eq_refl)|exact Hr].
    + cbn [may_continue asked_delay]. cbv zeta. destruct (c w).
      * exact (IH (S pc) (u8 (lab base prog pc)) (set_delay 0 o) w now Hn Hr).
      * cbn [rel_out]. split; [reflexivity|]. split; [reflexivity|]. eexists. split; [exact E|]. split; [reflexivity|].
        split; [apply (lab_fits _ _ E eq_refl)|exact Hr].
    + cbn [may_continue asked_delay]. cbv zeta. destruct (c w).
      * exact (IH (S pc) (u8 (lab base prog pc)) (set_delay (d w) o) w now Hn Hr).
      * cbn [rel_out]. split; [reflexivity|]. split; [reflexivity|]. eexists. split; [exact E|]. split; [reflexivity|].
        split; [apply (lab_fits _ _ E eq_refl)|exact Hr].
    + cbn [may_continue asked_delay]. cbv zeta. unfold start_timeout. rewrite Hr.
      unfold is_timeout, set_delay. cbn [ttimeout tlast tdelay trunning bind]. rewrite Hn.
      destruct (u32 (t w) <? u32 (now - now)), (c w); cbn [negb andb orb];
        try (match goal with |- rel_out _ (exec _ _ _ _ _ ?e ?oo _) _ => exact (IH (S pc) e oo w now eq_refl eq_refl) end).
      cbn [rel_out tdelay]. split; [reflexivity|]. split; [reflexivity|]. eexists. split; [exact E|]. split; [reflexivity|].
      split; [apply (lab_fits _ _ E eq_refl)|]. cbn. auto.
    + cbn [may_continue asked_delay]. cbv zeta. unfold start_timeout. rewrite Hr.
      unfold is_timeout, set_delay. cbn [ttimeout tlast tdelay trunning bind]. rewrite Hn.
      destruct (u32 (t w) <? u32 (now - now)), (c w); cbn [negb andb orb];
        try (match goal with |- rel_out _ (exec _ _ _ _ _ ?e ?oo _) _ => exact (IH (S pc) e oo w now eq_refl eq_refl) end).
      cbn [rel_out tdelay]. split; [reflexivity|]. split; [reflexivity|]. eexists. split; [exact E|]. split; [reflexivity|].
      split; [apply (lab_fits _ _ E eq_refl)|]. cbn. auto.
  - cbn [rel_out]. split; [reflexivity|]. split; [reflexivity|]. split; [apply last_fits|exact Hr].
Qed.

Lemma task_run_th : forall fuel ep o th w now, tlast o = now -> repr base prog ep o th ->
  rel_out now (task_run fuel base prog ep o w) (th_run fuel prog now th w (tdelay o)).
Proof.
  intros fuel ep o th w now Hn H. unfold task_run, th_run. destruct th as [pc|pc start|]; cbn [repr] in H.
  - destruct H as (-> & -> & Hr). rewrite Z.eqb_refl. apply exec_th; assumption.
  - destruct H as (i & E & M & -> & Ht).
    destruct (Z.eqb_spec (lab base prog pc) base) as [Hl|_]; [exfalso; unfold lab in Hl; lia|].
    unfold lab at 1. rewrite (find_label_lab _ _ _ _ _ E M). rewrite E. cbn [exec]. rewrite E.
    destruct i as [f|t|c t| |d|c|c d|c t|c t d]; try discriminate M; cbn [may_continue is_timed] in *; cbv zeta.
    + apply exec_th; assumption.
    + apply exec_th; assumption.
    + destruct (c w); [apply exec_th; assumption|]. cbn [rel_out]. split; [reflexivity|]. split; [reflexivity|].
      eexists. split; [exact E|]. auto.
    + destruct (c w); [apply exec_th; assumption|]. cbn [rel_out]. split; [reflexivity|]. split; [reflexivity|].
      eexists. split; [exact E|]. auto.
    + destruct Ht as [Hr Hs]. unfold is_timeout. rewrite Hs. cbn [bind]. rewrite Hn.
      destruct (u32 (t w) <? u32 (now - start)), (c w); cbn [negb andb orb];
        try (exact (exec_th fuel (S pc) _ (reset_timeout o) w now Hn eq_refl)).
      cbn [rel_out]. split; [reflexivity|]. split; [reflexivity|]. eexists. split; [exact E|]. cbn. auto.
    + destruct Ht as [Hr Hs]. unfold is_timeout. rewrite Hs. cbn [bind]. rewrite Hn.
      destruct (u32 (t w) <? u32 (now - start)), (c w); cbn [negb andb orb];
        try (exact (exec_th fuel (S pc) _ (reset_timeout o) w now Hn eq_refl)).
      cbn [rel_out]. split; [reflexivity|]. split; [reflexivity|]. eexists. split; [exact E|]. cbn. auto.
  - destruct H as [-> Hr]. destruct (Z.eqb_spec (last_label base prog) base) as [Hl|_]; [exfalso; unfold last_label in Hl; lia|].
    destruct (find_label (base + 1) prog (last_label base prog)) as [x|] eqn:E.
    { apply find_label_ge in E. unfold last_label in E. lia. }
    cbn [rel_out repr]. auto.
Qed.

Lemma task_runs_th : forall fuel acts ep o th w, repr base prog ep o th ->
  task_runs fuel base prog ep o w acts = th_runs fuel prog th w (tdelay o) acts.
Proof.
  intros fuel. induction acts as [|[now env] acts IH]; intros ep o th w H; cbn [task_runs th_runs]; [reflexivity|].
  assert (H1 : repr base prog ep (set_last_run now o) th) by (destruct th; exact H).
  pose proof (task_run_th fuel ep (set_last_run now o) th (env w) now eq_refl H1) as R.
  cbn [tdelay set_last_run] in R. change (tdelay (set_last_run now o)) with (tdelay o) in R.
  destruct (task_run fuel base prog ep (set_last_run now o) (env w)) as [[[ep1 o1] w1]|u],
           (th_run fuel prog now th (env w) (tdelay o)) as [[[th1 w1'] d1]|v]; cbn [rel_out] in R; try contradiction.
  - destruct R as (<- & <- & R). cbn [bind]. rewrite (IH _ _ _ _ R). reflexivity.
  - subst v. reflexivity.
Qed.
End Fixed.

Lemma task_refines_thread_lemma : forall W (prog : list (instr W)) base fuel acts w d,
  0 <= base -> base + 1 + Z.of_nat (macros prog) < 256 ->
  task_runs fuel base prog (entry_init base) (task_new d) w acts =
  th_runs fuel prog (TReady 0) w (u16 d) acts.
Proof.
  intros W prog base fuel acts w d Hb Hf. unfold entry_init.
  replace (u8 base) with base by (unfold u8; lia).
  exact (task_runs_th base prog Hb Hf fuel acts base (task_new d) (TReady 0) w (conj eq_refl (conj eq_refl eq_refl))).
Qed.

(** ** Dead tasks *)

Lemma dead_lemma : forall W (prog : list (instr W)) base fuel acts w d, 256 <= base ->
  exists outs, task_runs fuel base prog (entry_init base) (task_new d) w acts = Ok outs /\
    Forall (fun o => snd o = u16 d) outs /\
    map fst outs = map (fun k => fold_left (fun x e => snd e x) (firstn (S k) acts) w) (seq 0 (length acts)).
Proof.
  intros W prog base fuel acts w d Hb. unfold entry_init. assert (Hd : tdelay (task_new d) = u16 d) by reflexivity.
  revert w Hd. generalize (task_new d) as o. 
  induction acts as [|[now env] acts IH]; intros o w Hd; cbn [task_runs]; [exists []; auto|].
  unfold task_run at 1. destruct (Z.eqb_spec (u8 base) base) as [He|_]; [exfalso; unfold u8 in He; lia|].
  destruct (find_label (base + 1) prog (u8 base)) as [x|] eqn:E.
  { apply find_label_ge in E. unfold u8 in E. lia. }
  cbn [bind]. destruct (IH (set_last_run now o) (env w) Hd) as (outs & -> & F & M). cbn [bind].
  exists ((env w, tdelay o) :: outs). split; [reflexivity|]. split; [constructor; [exact Hd|exact F]|].
  cbn [length seq map]. cbn [fst firstn fold_left snd]. f_equal. rewrite M, <- seq_shift, map_map. reflexivity.
Qed.

(** ** Straight-line bodies *)


Lemma combine_app' : forall A B (l1 l2 : list A) (m1 m2 : list B), length l1 = length m1 ->
  combine (l1 ++ l2) (m1 ++ m2) = combine l1 m1 ++ combine l2 m2.
Proof. induction l1; destruct m1; cbn; intros; try discriminate; auto. f_equal. apply IHl1. lia. Qed.

Lemma macros_skipn_le : forall W k (l : list (instr W)), (macros (skipn k l) <= macros l)%nat.
Proof. induction k; intros [|x l]; cbn; try lia. specialize (IHk l). lia. Qed.

Lemma macros_skipn_S : forall W p (l : list (instr W)) i, nth_error l p = Some i -> is_macro i = true ->
  macros (skipn p l) = S (macros (skipn (S p) l)).
Proof.
  induction p; intros [|x l] i H M; try discriminate.
  - cbn in *. injection H as ->. rewrite M. reflexivity.
  - cbn [nth_error] in H. change (skipn (S p) (x :: l)) with (skipn p l). change (skipn (S (S p)) (x :: l)) with (skipn (S p) l).
    eapply IHp; eauto.
Qed.

Lemma skipn_skipn' : forall A a b (l : list A), skipn a (skipn b l) = skipn (b + a) l.
Proof. induction b; intros [|x l]; cbn; auto; destruct a; auto. Qed.

Section Straight.
Context {E : Type} (body : list (instr (E * list nat))).
Hypothesis Hstraight : forallb straight body = true.
Hypothesis Hlog : forall pc f, nth_error body pc = Some (IAct f) -> forall e l, snd (f (e, l)) = l ++ [pc].

Lemma logs_of_step : forall pc i, nth_error body pc = Some i ->
  logs_of (firstn (S pc) body) 0 =
  logs_of (firstn pc body) 0 ++ match i with IAct _ => [pc] | _ => [] end.
Proof.
  intros pc i H. assert (Hl : (pc < length body)%nat) by (apply nth_error_Some; congruence).
  assert (firstn (S pc) body = firstn pc body ++ [i]) as ->.
  { apply nth_error_split in H. destruct H as (l1 & l2 & -> & <-). rewrite (firstn_app (S _)), firstn_all2 by lia.
    replace (S (length l1) - length l1)%nat with 1%nat by lia. rewrite firstn_app, firstn_all, Nat.sub_diag, app_nil_r. reflexivity. }
  unfold logs_of. rewrite app_length. cbn [length]. rewrite Nat.add_1_r, seq_S, combine_app'.
  2:{ rewrite seq_length. reflexivity. }
  rewrite filter_app, map_app, firstn_length, Nat.min_l by lia. cbn. destruct i; reflexivity.
Qed.

Definition at_pc (th : thread) : nat := match th with TReady pc | TBlocked pc _ => pc | TDone => length body end.

Lemma th_exec_straight : forall fuel now pc w d, (length body - pc < fuel)%nat ->
  snd w = logs_of (firstn pc body) 0 ->
  exists th w' d', th_exec fuel body now pc w d = Ok (th, w', d') /\
    snd w' = logs_of (firstn (at_pc th) body) 0 /\ 
    match th with TBlocked p _ => (pc <= p)%nat /\ exists i, nth_error body p = Some i /\ is_macro i = true | TDone => True | TReady _ => False end.
Proof.
  induction fuel as [|fuel IH]; intros now pc w d Hf Hw; [lia|]. cbn [th_exec].
  destruct (nth_error body pc) as [i|] eqn:En.
  - assert (Hl : (pc < length body)%nat) by (apply nth_error_Some; congruence).
    assert (Hs : straight i = true). { apply nth_error_In in En. rewrite forallb_forall in Hstraight. auto. }
    pose proof (logs_of_step pc i En) as Hst.
    assert (Hm : forall d2, is_macro i = true -> exists th w' d', th_exec fuel body now (S pc) w d2 = Ok (th, w', d') /\
      snd w' = logs_of (firstn (at_pc th) body) 0 /\ 
      match th with TBlocked p _ => (pc <= p)%nat /\ exists i, nth_error body p = Some i /\ is_macro i = true | TDone => True | TReady _ => False end).
    { intros d2 M. destruct (IH now (S pc) w d2) as (th & w' & d' & Ee & Hw' & Ht); [lia| |].
      { rewrite Hst, Hw. destruct i; try discriminate; now rewrite app_nil_r. }
      exists th, w', d'. split; [exact Ee|]. split; [exact Hw'|]. destruct th; auto. destruct Ht as [Hp Hi]. split; [lia|exact Hi]. }
    assert (Hb : forall s d2, is_macro i = true -> exists th w' d', @Ok (thread * (E * list nat) * Z) (TBlocked pc s, w, d2) = Ok (th, w', d') /\
      snd w' = logs_of (firstn (at_pc th) body) 0 /\ 
      match th with TBlocked p _ => (pc <= p)%nat /\ exists i, nth_error body p = Some i /\ is_macro i = true | TDone => True | TReady _ => False end).
    { intros s d2 M. do 3 eexists. split; [reflexivity|]. split; [exact Hw|]. split; [lia|]. exists i. auto. }
    destruct i as [f|t|c t| |dd|c|c dd|c t|c t dd]; try discriminate Hs; try (apply Hb; reflexivity);
      try (destruct (may_continue _ now now w); [apply Hm|apply Hb]; reflexivity).
    destruct (IH now (S pc) (f w) d) as (th & w' & d' & Ee & Hw' & Ht); [lia| |].
    { destruct w as [e l]. rewrite (Hlog _ _ En), Hst. cbn [snd] in Hw. now rewrite Hw. }
    exists th, w', d'. split; [exact Ee|]. split; [exact Hw'|]. destruct th; auto. destruct Ht as [Hp Hi]. split; [lia|exact Hi].
  - exists TDone, w, d. split; [reflexivity|]. split; [|exact I]. cbn [at_pc].
    apply nth_error_None in En. rewrite firstn_all, Hw, firstn_all2 by lia. reflexivity.
Qed.

Definition th_good (th : thread) : Prop :=
  match th with TReady pc => pc = O | TBlocked p _ => exists i, nth_error body p = Some i /\ is_macro i = true | TDone => True end.

Lemma th_run_straight : forall fuel now th w d, (length body < fuel)%nat -> th_good th ->
  snd w = logs_of (firstn (at_pc th) body) 0 ->
  exists th' w' d', th_run fuel body now th w d = Ok (th', w', d') /\ th_good th' /\ (at_pc th <= at_pc th')%nat /\
    snd w' = logs_of (firstn (at_pc th') body) 0.
Proof.
  intros fuel now th w d Hf Hg Hw. destruct th as [pc|pc s|]; cbn [th_run].
  - destruct (th_exec_straight fuel now pc w d ltac:(lia) Hw) as (th' & w' & d' & Ee & Hw' & Ht).
    exists th', w', d'. split; [exact Ee|]. cbn [th_good] in Hg. subst pc. cbn [at_pc].
    destruct th' as [|p s'|]; [contradiction| |]; cbn [th_good at_pc]; [|split; [exact I|split; [lia|exact Hw']]].
    split; [apply Ht|]. split; [lia|exact Hw'].
  - destruct Hg as (i & Ei & M). rewrite Ei. assert (Hl : (pc < length body)%nat) by (apply nth_error_Some; congruence).
    destruct (may_continue i s now w).
    + destruct (th_exec_straight fuel now (S pc) w d ltac:(lia)) as (th' & w' & d' & Ee & Hw' & Ht).
      { rewrite (logs_of_step _ _ Ei). cbn [at_pc] in Hw. rewrite Hw. destruct i; try discriminate; now rewrite app_nil_r. }
      exists th', w', d'. split; [exact Ee|]. destruct th' as [|p s'|]; [contradiction| |]; cbn [th_good at_pc]; [|split; [exact I|split; [lia|exact Hw']]].
      split; [apply Ht|]. split; [lia|exact Hw'].
    + do 3 eexists. split; [reflexivity|]. split; [exists i; auto|]. split; [lia|exact Hw].
  - do 3 eexists. split; [reflexivity|]. split; [exact I|]. split; [lia|exact Hw].
Qed.

Lemma th_runs_straight : forall fuel acts th w d, (length body < fuel)%nat -> th_good th ->
  snd w = logs_of (firstn (at_pc th) body) 0 ->
  (forall now env, In (now, env) acts -> forall x, snd (env x) = snd x) ->
  exists outs, th_runs fuel body th w d acts = Ok outs /\
    Forall (fun o => exists k, snd (fst o) = logs_of (firstn k body) 0 /\ (at_pc th <= k)%nat) outs.
Proof.
  intros fuel. induction acts as [|[now env] acts IH]; intros th w d Hf Hg Hw He; cbn [th_runs]; [exists []; auto|].
  destruct (th_run_straight fuel now th (env w) d Hf Hg) as (th' & w' & d' & E1 & G1 & L1 & W1).
  { rewrite (He now env) by (now left). exact Hw. }
  rewrite E1. cbn [bind]. destruct (IH th' w' d' Hf G1 W1) as (outs & -> & F). { intros n e Hi. apply (He n e). now right. }
  cbn [bind]. exists ((w', d') :: outs). split; [reflexivity|]. constructor.
  - exists (at_pc th'). auto.
  - eapply Forall_impl; [|exact F]. cbn beta. intros a (k & Hk & Hl). exists k. split; [exact Hk|lia].
Qed.

(** Macros still to be passed. *)
Definition todo (th : thread) : nat :=
  match th with TReady pc => macros (skipn pc body) | TBlocked p _ => macros (skipn (S p) body) | TDone => O end.

(** With all conditions true every activation passes at least one more macro. *)
Lemma th_run_todo : forall fuel now th w d th' w' d', (length body < fuel)%nat -> th_good th ->
  snd w = logs_of (firstn (at_pc th) body) 0 ->
  (forall i, In i body -> forall s now x, may_continue i s now x = true) ->
  th_run fuel body now th w d = Ok (th', w', d') -> th' = TDone \/ (todo th' < todo th)%nat.
Proof.
  intros fuel now th w d th' w' d' Hf Hg Hw Hc H. destruct th as [p|p s|]; cbn [th_run th_good at_pc] in *.
  - subst p. destruct (th_exec_straight fuel now 0%nat w d ltac:(lia) Hw) as (a & b & c & Ee & _ & Ht).
    rewrite H in Ee. injection Ee as <- <- <-. destruct th' as [|p s|]; [contradiction| |auto].
    right. cbn [todo]. destruct Ht as (_ & i & Ei & M). pose proof (macros_skipn_S _ _ _ _ Ei M).
    pose proof (macros_skipn_le _ p body). change (skipn 0 body) with body. lia.
  - destruct Hg as (i & Ei & M). rewrite Ei in H. rewrite (Hc i) in H by (eapply nth_error_In; eauto).
    assert (Hl : (p < length body)%nat) by (apply nth_error_Some; congruence).
    destruct (th_exec_straight fuel now (S p) w d ltac:(lia)) as (a & b & c & Ee & _ & Ht).
    { rewrite (logs_of_step _ _ Ei), Hw. destruct i; try discriminate; now rewrite app_nil_r. }
    rewrite H in Ee. injection Ee as <- <- <-. destruct th' as [|q s'|]; [contradiction| |auto].
    right. cbn [todo]. destruct Ht as (Hq & j & Ej & Mj). pose proof (macros_skipn_S _ _ _ _ Ej Mj).
    assert (Hs : skipn q body = skipn (q - S p) (skipn (S p) body)) by (rewrite skipn_skipn'; f_equal; lia).
    pose proof (macros_skipn_le _ (q - S p) (skipn (S p) body)) as Hle. rewrite <- Hs in Hle. lia.
  - injection H as <- <- <-. auto.
Qed.

Lemma th_runs_straight_progress : forall fuel acts th w d, (length body < fuel)%nat -> th_good th ->
  snd w = logs_of (firstn (at_pc th) body) 0 ->
  (forall now env, In (now, env) acts -> forall x, snd (env x) = snd x) ->
  (forall i, In i body -> forall s now x, may_continue i s now x = true) ->
  (todo th < length acts)%nat ->
  exists o outs', th_runs fuel body th w d acts = Ok (outs' ++ [o]) /\ snd (fst o) = logs_of body 0.
Proof.
  intros fuel acts. induction acts as [|[now env] acts IH]; intros th w d Hf Hg Hw He Hc Hlen; [cbn in Hlen; lia|].
  cbn [th_runs].
  assert (Hw1 : snd (env w) = logs_of (firstn (at_pc th) body) 0) by (rewrite (He now env) by (now left); exact Hw).
  destruct (th_run_straight fuel now th (env w) d Hf Hg Hw1) as (th' & w' & d' & E1 & G1 & L1 & W1).
  pose proof (th_run_todo fuel now th (env w) d th' w' d' Hf Hg Hw1 Hc E1) as Hprog. rewrite E1. cbn [bind].
  destruct acts as [|a acts].
  - cbn [length] in Hlen. assert (th' = TDone) as -> by (destruct Hprog as [?|?]; [assumption|lia]).
    exists (w', d'), []. split; [reflexivity|]. cbn [fst]. rewrite W1. cbn [at_pc]. rewrite firstn_all. reflexivity.
  - destruct (IH th' w' d' Hf G1 W1) as (o & outs' & -> & Ho); auto.
    { intros n e Hi. apply (He n e). now right. }
    { destruct Hprog as [->|?]; cbn [todo length] in *; lia. }
    exists o, ((w', d') :: outs'). auto.
Qed.

Lemma straight_lemma : forall base fuel acts e d, 0 <= base -> base + 1 + Z.of_nat (macros body) < 256 ->
  (length body < fuel)%nat ->
  (forall now env, In (now, env) acts -> forall x, snd (env x) = snd x) ->
  exists outs, task_runs fuel base body (entry_init base) (task_new d) (e, []) acts = Ok outs /\
    Forall (fun o => exists k, snd (fst o) = logs_of (firstn k body) 0) outs.
Proof.
  intros base fuel acts e d Hb Hfit Hf He. rewrite task_refines_thread_lemma by assumption.
  destruct (th_runs_straight fuel acts (TReady 0) (e, []) (u16 d) Hf eq_refl eq_refl He) as (outs & -> & F).
  exists outs. split; [reflexivity|]. eapply Forall_impl; [|exact F]. cbn beta. intros a (k & Hk & _). eauto.
Qed.

Lemma straight_progress_lemma : forall base fuel acts e d, 0 <= base -> base + 1 + Z.of_nat (macros body) < 256 ->
  (length body < fuel)%nat ->
  (forall now env, In (now, env) acts -> forall x, snd (env x) = snd x) ->
  (forall i, In i body -> forall s now x, may_continue i s now x = true) ->
  (macros body < length acts)%nat ->
  exists o outs, task_runs fuel base body (entry_init base) (task_new d) (e, []) acts = Ok (outs ++ [o]) /\
    snd (fst o) = logs_of body 0.
Proof.
  intros base fuel acts e d Hb Hfit Hf He Hc Hl. rewrite task_refines_thread_lemma by assumption.
  apply (th_runs_straight_progress fuel acts (TReady 0) (e, []) (u16 d) Hf eq_refl eq_refl He Hc Hl).
Qed.
End Straight.

(** ** Waiting with a timeout *)

Lemma wait_done : forall fuel t acts b d, exists outs,
  th_runs fuel (wait_prog t) TDone (b, true) d (wait_acts acts) = Ok outs /\ reached outs = map (fun _ => true) acts.
Proof.
  intros fuel t. induction acts as [|[now c] acts IH]; intros b d; cbn [wait_acts map th_runs]; [exists []; auto|].
  cbn [th_run bind snd]. destruct (IH c d) as (outs & E & R). unfold wait_acts in E. cbn [fst snd] in *. rewrite E. cbn [bind].
  exists ((c, true, d) :: outs). split; [reflexivity|]. cbn [reached map fst snd]. f_equal. exact R.
Qed.

Lemma wait_exec_done : forall fuel t now w d, (1 < fuel)%nat ->
  th_exec fuel (wait_prog t) now 1 w d = Ok (TDone, (fst w, true), d).
Proof. intros [|[|fuel]] t now w d H; try lia. reflexivity. Qed.

Lemma wait_blocked : forall fuel t t0 acts b d, (2 < fuel)%nat -> 0 <= t < 4294967296 ->
  Forall (fun a => t0 <= fst a < t0 + 4294967296) acts ->
  exists outs, th_runs fuel (wait_prog t) (TBlocked 0 (tick_of t0)) (b, false) d (wait_acts acts) = Ok outs /\
    reached outs = map (fun k => existsb (fun a => snd a || (t <? fst a - t0)) (firstn (S k) acts)) (seq 0 (length acts)).
Proof.
  intros fuel t t0 acts. induction acts as [|[now c] acts IH]; intros b d Hf Ht H; cbn [wait_acts map th_runs]; [exists []; auto|].
  apply Forall_inv in H as Hn. apply Forall_inv_tail in H. cbn [fst snd] in *.
  unfold th_run at 1. cbn [wait_prog nth_error may_continue fst].
  assert (Hu : (u32 t <? u32 (tick_of now - tick_of t0)) = (t <? now - t0)).
  { unfold tick_of, u32. rewrite (Z.mod_small t) by lia. rewrite <- Zminus_mod, (Z.mod_small (now - t0)) by lia. reflexivity. }
  rewrite Hu. cbn [length seq map firstn existsb fst snd]. rewrite <- seq_shift, map_map.
  destruct (c || (t <? now - t0)) eqn:Ec.
  - change [ICondTimeout fst (fun _ => t); IAct (fun w => (fst w, true))] with (wait_prog t).
    rewrite wait_exec_done by lia. cbn [bind fst]. destruct (wait_done fuel t acts c d) as (outs & E & R).
    unfold wait_acts in E. rewrite E. cbn [bind]. exists ((c, true, d) :: outs). split; [reflexivity|].
    cbn [reached map fst snd orb]. f_equal. fold (reached outs). rewrite R. clear.
    generalize 0%nat. induction acts; intros n; cbn; [reflexivity|]. f_equal. apply IHacts.
  - change [ICondTimeout fst (fun _ => t); IAct (fun w => (fst w, true))] with (wait_prog t).
    cbn [bind]. destruct (IH c d Hf Ht H) as (outs & E & R). unfold wait_acts in E. cbn [fst snd] in E. rewrite E. cbn [bind].
    exists ((c, false, d) :: outs). split; [reflexivity|]. cbn [reached map fst snd orb]. f_equal. exact R.
Qed.

Lemma wait_lemma : forall base fuel t t0 acts d, 0 <= base < 253 -> (2 < fuel)%nat -> 0 <= t < 4294967296 ->
  Forall (fun a => t0 <= fst a < t0 + 4294967296) acts -> (exists b acts', acts = (t0, b) :: acts') ->
  exists outs, task_runs fuel base (wait_prog t) (entry_init base) (task_new d) (false, false) (wait_acts acts) = Ok outs /\
    reached outs = map (fun k => existsb (fun a => snd a || (t <? fst a - t0)) (firstn (S k) acts)) (seq 0 (length acts)).
Proof.
  intros base fuel t t0 acts d Hb Hf Ht H (b & acts' & ->). rewrite task_refines_thread_lemma by (cbn; lia).
  apply Forall_inv_tail in H. cbn [wait_acts map fst snd th_runs th_run].
  destruct fuel as [|fuel]; [lia|]. cbn [th_exec wait_prog nth_error may_continue fst asked_delay].
  assert (Hu : (u32 t <? u32 (tick_of t0 - tick_of t0)) = false).
  { unfold tick_of, u32. rewrite Z.sub_diag, (Z.mod_small t) by lia. change (0 mod 4294967296) with 0. lia. }
  assert (Hz : (t <? t0 - t0) = false) by lia.
  rewrite Hu, orb_false_r. cbn [length seq map firstn existsb fst snd]. rewrite <- seq_shift, map_map, Hz, orb_false_r.
  change [ICondTimeout fst (fun _ => t); IAct (fun w => (fst w, true))] with (wait_prog t).
  destruct b.
  - rewrite wait_exec_done by lia. cbn [bind fst]. destruct (wait_done (S fuel) t acts' true 0) as (outs & E & R).
    unfold wait_acts in E. rewrite E. cbn [bind]. exists ((true, true, 0) :: outs). split; [reflexivity|].
    cbn [reached map fst snd orb]. f_equal. fold (reached outs). rewrite R. clear.
    generalize 0%nat. induction acts'; intros n; cbn; [reflexivity|]. f_equal. apply IHacts'.
  - cbn [bind]. destruct (wait_blocked (S fuel) t t0 acts' false 0 Hf Ht H) as (outs & E & R). unfold wait_acts in E. rewrite E. cbn [bind].
    exists ((false, false, 0) :: outs). split; [reflexivity|]. cbn [reached map fst snd orb]. f_equal. exact R.
Qed.
