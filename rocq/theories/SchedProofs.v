(** Proofs about Sched.v. *)
From Coq Require Import ZArith List Bool Lia Arith Permutation.
From Verif Require Import Base TaskMacros Sched.
Import ListNotations.
Open Scope Z_scope.
Ltac Zify.zify_post_hook ::= Z.div_mod_to_equations.

Lemma seq_add : forall m c, map (fun k => (c + k)%nat) (seq 0 m) = seq c m.
Proof.
  induction m; intros c; [reflexivity|]. cbn [seq map]. rewrite Nat.add_0_r. f_equal.
  rewrite <- (IHm (S c)), <- seq_shift, map_map. apply map_ext. intros; lia.
Qed.

(** A block of n consecutive visits is a permutation of the tasks. *)
Lemma rotation_permutation : forall n c, (c < n)%nat ->
  Permutation (map (fun k => (c + k) mod n)%nat (seq 0 n)) (seq 0 n).
Proof.
  intros n c Hc. assert (Hs : seq 0 n = seq 0 (n - c) ++ seq (0 + (n - c)) c) by (rewrite <- seq_app; f_equal; lia).
  rewrite Hs at 1. rewrite map_app.
  assert (E1 : map (fun k => (c + k) mod n)%nat (seq 0 (n - c)) = seq c (n - c)).
  { transitivity (map (fun k => (c + k)%nat) (seq 0 (n - c))).
    - apply map_ext_in. intros k Hk. apply in_seq in Hk. apply Nat.mod_small. lia.
    - apply seq_add. }
  assert (E2 : map (fun k => (c + k) mod n)%nat (seq (0 + (n - c)) c) = seq 0 c).
  { cbn [Nat.add]. rewrite <- seq_add, map_map. rewrite <- (map_id (seq 0 c)) at 2. apply map_ext_in. intros k Hk. apply in_seq in Hk.
    replace (c + (n - c + k))%nat with (k + 1 * n)%nat by lia. rewrite Nat.mod_add by lia. apply Nat.mod_small. lia. }
  rewrite E1, E2. replace (seq 0 n) with (seq 0 c ++ seq c (n - c)).
  - apply Permutation_app_comm.
  - rewrite <- seq_app. f_equal. lia.
Qed.

Section S.
Context {W : Type} (body : nat -> W -> list tobj -> W * list tobj).
(** The task list itself never changes. *)
Hypothesis Hlen : forall i w ts, length (snd (body i w ts)) = length ts.

Lemma list_set_length' : forall A (l : list A) i x, length (list_set l i x) = length l.
Proof. induction l; intros [|i] x; cbn; auto. Qed.

Lemma run_task_ok : forall t s, (cur s < length (tasks s))%nat ->
  exists s' v, run_task body t s = Ok (s', v) /\ length (tasks s') = length (tasks s) /\
    who v = cur s /\ vtime v = t /\
    cur s' = (if (S (cur s) =? length (tasks s))%nat then O else S (cur s)).
Proof.
  intros t s Hc. unfold run_task. destruct (nth_error (tasks s) (cur s)) as [o|] eqn:E; [|apply nth_error_None in E; lia].
  cbv zeta. set (r := if due (u32 t) o then _ else _).
  assert (Hr : length (snd r) = length (tasks s)).
  { subst r. destruct (due (u32 t) o); [rewrite Hlen, list_set_length'|]; reflexivity. }
  destruct r as [w1 ts1]. cbn [snd] in Hr. do 2 eexists. split; [reflexivity|]. cbn [tasks who vtime cur].
  split; [exact Hr|]. split; [reflexivity|]. split; [reflexivity|].
  destruct (nth_error ts1 (S (cur s))) as [x|] eqn:E2.
  - assert (S (cur s) < length ts1)%nat by (apply nth_error_Some; congruence).
    destruct (Nat.eqb_spec (S (cur s)) (length (tasks s))); [lia|reflexivity].
  - apply nth_error_None in E2. destruct (Nat.eqb_spec (S (cur s)) (length (tasks s))); [reflexivity|lia].
Qed.

Lemma sched_run_ok : forall ts s, (cur s < length (tasks s))%nat ->
  exists s' vs, sched_run body ts s = Ok (s', vs) /\ length (tasks s') = length (tasks s) /\
    (cur s' < length (tasks s'))%nat /\ map vtime vs = ts /\
    map who vs = map (fun k => (cur s + k) mod length (tasks s))%nat (seq 0 (length ts)).
Proof.
  induction ts as [|t ts IH]; intros s Hc; cbn [sched_run].
  - exists s, []. auto.
  - destruct (run_task_ok t s Hc) as (s1 & v & E & L & Hw & Ht & Hcur). rewrite E. cbn [bind].
    assert (Hc1 : (cur s1 < length (tasks s1))%nat).
    { rewrite Hcur, L. destruct (Nat.eqb_spec (S (cur s)) (length (tasks s))); lia. }
    destruct (IH s1 Hc1) as (s2 & vs & E2 & L2 & C2 & T2 & W2). rewrite E2. cbn [bind].
    exists s2, (v :: vs). split; [reflexivity|]. split; [congruence|]. split; [exact C2|].
    split; [cbn [map]; rewrite T2, Ht; reflexivity|].
    cbn [map length seq]. rewrite <- seq_shift, map_map, W2, Hw, Nat.add_0_r, Nat.mod_small by lia.
    f_equal. apply map_ext. intros k. rewrite L, Hcur.
    destruct (Nat.eqb_spec (S (cur s)) (length (tasks s))) as [He|He].
    + replace (cur s + S k)%nat with (k + 1 * length (tasks s))%nat by lia. rewrite Nat.mod_add by lia. reflexivity.
    + f_equal. lia.
Qed.

End S.

Section S2.
Context {W : Type} (body : nat -> W -> list tobj -> W * list tobj).
(** Bodies do not touch the time of the last run (only the scheduler calls
    setLastRun). *)
Hypothesis Hlast : forall i w ts, map tlast (snd (body i w ts)) = map tlast ts.

Lemma map_list_set_same : forall A B (f : A -> B) (l : list A) i x o, nth_error l i = Some o -> f x = f o ->
  map f (list_set l i x) = map f l.
Proof. induction l; intros [|i] x o H E; cbn in *; try discriminate; [injection H as ->; now rewrite E|f_equal; eauto]. Qed.

Lemma map_list_set : forall A B (f : A -> B) (l : list A) i x, map f (list_set l i x) = list_set (map f l) i (f x).
Proof. induction l; intros [|i] x; cbn; auto. f_equal. auto. Qed.

Lemma nth_list_set_eq : forall A (l : list A) i x, (i < length l)%nat -> nth_error (list_set l i x) i = Some x.
Proof. induction l; intros [|i] x H; cbn in *; try lia; auto. apply IHl. lia. Qed.
Lemma nth_list_set_neq : forall A (l : list A) i j x, i <> j -> nth_error (list_set l i x) j = nth_error l j.
Proof. induction l; intros [|i] [|j] x H; cbn; auto; try lia. Qed.

Definition last_of (i : nat) (s : sched_state W) : option Z := nth_error (map tlast (tasks s)) i.

Lemma run_task_last : forall t s s' v i, run_task body t s = Ok (s', v) ->
  last_of i s' = if (who v =? i)%nat && ran v then Some (u32 t) else last_of i s.
Proof.
  intros t s s' v i H. unfold run_task in H. destruct (nth_error (tasks s) (cur s)) as [o|] eqn:E; [|discriminate].
  cbv zeta in H. destruct (due (u32 t) o) eqn:D.
  - destruct (body (cur s) (world s) (list_set (tasks s) (cur s) (set_last_run (u32 t) o))) as [w1 ts1] eqn:B.
    injection H as <- <-. cbn [who ran]. unfold last_of. cbn [tasks].
    pose proof (Hlast (cur s) (world s) (list_set (tasks s) (cur s) (set_last_run (u32 t) o))) as HL. rewrite B in HL. cbn [snd] in HL.
    rewrite HL, map_list_set. cbn [tlast set_last_run].
    assert (Hcl : (cur s < length (tasks s))%nat) by (apply nth_error_Some; congruence).
    destruct (Nat.eqb_spec (cur s) i) as [Hi|Hne]; cbn [andb].
    + rewrite <- Hi. apply nth_list_set_eq. rewrite map_length. exact Hcl.
    + apply nth_list_set_neq. assumption.
  - injection H as <- <-. cbn [who ran]. rewrite andb_false_r. reflexivity.
Qed.

Lemma run_task_due : forall t s s' v l, run_task body t s = Ok (s', v) -> last_of (who v) s = Some l ->
  ran v = (vdelay v =? 0) || (vdelay v <=? u32 (u32 t - l)).
Proof.
  intros t s s' v l H Hl. unfold run_task in H. destruct (nth_error (tasks s) (cur s)) as [o|] eqn:E; [|discriminate].
  cbv zeta in H. match type of H with (let '(w1, ts1) := ?r in _) = _ => destruct r as [w1 ts1] end.
  injection H as <- <-. cbn [ran who vdelay] in *. unfold last_of in Hl. rewrite nth_error_map, E in Hl.
  cbn [option_map] in Hl. injection Hl as <-. reflexivity.
Qed.

Lemma sched_run_app : forall a b s s2 vs, sched_run body (a ++ b) s = Ok (s2, vs) ->
  exists s1 va vb, sched_run body a s = Ok (s1, va) /\ sched_run body b s1 = Ok (s2, vb) /\ vs = va ++ vb.
Proof.
  induction a as [|t a IH]; intros b s s2 vs H; cbn [app sched_run] in *.
  - exists s, [], vs. auto.
  - destruct (run_task body t s) as [[s1 v]|] eqn:E; [|discriminate]. cbn [bind] in *.
    destruct (sched_run body (a ++ b) s1) as [[s3 vs3]|] eqn:E2; [|discriminate]. cbn [bind] in H. injection H as <- <-.
    destruct (IH _ _ _ _ E2) as (s4 & va & vb & Ha & Hb & ->). rewrite Ha. cbn [bind]. exists s4, (v :: va), vb. auto.
Qed.

Lemma sched_run_visits : forall ts s s' a e b, sched_run body ts s = Ok (s', a ++ e :: b) ->
  exists ta tb s1 s2, ts = ta ++ vtime e :: tb /\ sched_run body ta s = Ok (s1, a) /\
    run_task body (vtime e) s1 = Ok (s2, e) /\ sched_run body tb s2 = Ok (s', b).
Proof.
  induction ts as [|t ts IH]; intros s s' a e b H; cbn [sched_run] in H.
  - injection H as _ H. destruct a; discriminate.
  - destruct (run_task body t s) as [[s1 v]|] eqn:E; [|discriminate]. cbn [bind] in *.
    destruct (sched_run body ts s1) as [[s3 vs3]|] eqn:E2; [|discriminate]. cbn [bind] in H. injection H as <- H.
    assert (Ht : vtime v = t).
    { unfold run_task in E. destruct (nth_error (tasks s) (cur s)); [|discriminate].
      cbv zeta in E. match type of E with (let '(w1, ts1) := ?r in _) = _ => destruct r end. injection E as _ <-. reflexivity. }
    destruct a as [|x a]; cbn [app] in H; injection H as <- H.
    + subst vs3. exists [], ts, s, s1. cbn [app sched_run]. rewrite Ht. auto.
    + subst vs3. destruct (IH _ _ _ _ _ E2) as (ta & tb & sa & sb & -> & Ha & Hr & Hb).
      exists (t :: ta), tb, sa, sb. cbn [app sched_run]. rewrite E. cbn [bind]. rewrite Ha. auto.
Qed.

Lemma quiet_last : forall ts s s' vs i, sched_run body ts s = Ok (s', vs) ->
  (forall v, In v vs -> who v = i -> ran v = false) -> last_of i s' = last_of i s.
Proof.
  induction ts as [|t ts IH]; intros s s' vs i H Hq; cbn [sched_run] in H.
  - injection H as <- <-. reflexivity.
  - destruct (run_task body t s) as [[s1 v]|] eqn:E; [|discriminate]. cbn [bind] in *.
    destruct (sched_run body ts s1) as [[s3 vs3]|] eqn:E2; [|discriminate]. cbn [bind] in H. injection H as <- <-.
    rewrite (IH _ _ _ _ E2) by (intros; apply Hq; [now right|assumption]).
    rewrite (run_task_last _ _ _ _ i E). destruct (Nat.eqb_spec (who v) i) as [Hi|Hi]; [|reflexivity].
    rewrite (Hq v) by (auto; now left). reflexivity.
Qed.

Lemma due_lemma : forall ts s s' pre e mid e' post, sched_run body ts s = Ok (s', pre ++ e :: mid ++ e' :: post) ->
  who e' = who e -> ran e = true -> (forall v, In v mid -> who v = who e -> ran v = false) ->
  vtime e <= vtime e' < vtime e + 4294967296 ->
  (ran e' = true <-> vdelay e' = 0 \/ vdelay e' <= vtime e' - vtime e).
Proof.
  intros ts s s' pre e mid e' post H Hw Hr Hq Ht.
  destruct (sched_run_visits _ _ _ _ _ _ H) as (ta & tb & s1 & s2 & _ & _ & He & Hb).
  destruct (sched_run_visits _ _ _ _ _ _ Hb) as (tc & td & s3 & s4 & _ & Hm & He' & _).
  pose proof (run_task_last _ _ _ _ (who e) He) as L1. rewrite Nat.eqb_refl, Hr in L1. cbn [andb] in L1.
  pose proof (quiet_last _ _ _ _ (who e) Hm Hq) as L2. rewrite L1 in L2. rewrite <- Hw in L2.
  rewrite (run_task_due _ _ _ _ _ He' L2).
  assert (Hu : u32 (u32 (vtime e') - u32 (vtime e)) = vtime e' - vtime e).
  { unfold u32. rewrite <- Zminus_mod. apply Z.mod_small. lia. }
  rewrite Hu. lia.
Qed.

(** Without the bound on the elapsed time: never early. *)
Lemma never_early_lemma : forall ts s s' pre e mid e' post, sched_run body ts s = Ok (s', pre ++ e :: mid ++ e' :: post) ->
  who e' = who e -> ran e = true -> ran e' = true -> (forall v, In v mid -> who v = who e -> ran v = false) ->
  vtime e <= vtime e' -> 0 <= vdelay e' -> vdelay e' <= vtime e' - vtime e.
Proof.
  intros ts s s' pre e mid e' post H Hw Hr Hr' Hq Ht Hd.
  destruct (sched_run_visits _ _ _ _ _ _ H) as (ta & tb & s1 & s2 & _ & _ & He & Hb).
  destruct (sched_run_visits _ _ _ _ _ _ Hb) as (tc & td & s3 & s4 & _ & Hm & He' & _).
  pose proof (run_task_last _ _ _ _ (who e) He) as L1. rewrite Nat.eqb_refl, Hr in L1. cbn [andb] in L1.
  pose proof (quiet_last _ _ _ _ (who e) Hm Hq) as L2. rewrite L1 in L2. rewrite <- Hw in L2.
  pose proof (run_task_due _ _ _ _ _ He' L2) as D. rewrite Hr' in D. symmetry in D. apply orb_true_iff in D.
  destruct D as [D|D]; [lia|].
  assert (Hu : u32 (u32 (vtime e') - u32 (vtime e)) <= vtime e' - vtime e).
  { unfold u32. rewrite <- Zminus_mod. apply Z.mod_le; lia. }
  lia.
Qed.

Lemma first_due_lemma : forall ts (tl : list tobj) (w : W) s' pre e post d,
  nth_error tl (who e) = Some (task_new d) ->
  sched_run body ts (sched_new tl w) = Ok (s', pre ++ e :: post) ->
  (forall v, In v pre -> who v = who e -> ran v = false) ->
  (ran e = true <-> vdelay e = 0 \/ vdelay e <= vtime e mod 4294967296).
Proof.
  intros ts tl w s' pre e post d Hn H Hq.
  destruct (sched_run_visits _ _ _ _ _ _ H) as (ta & tb & s1 & s2 & _ & Hm & He & Hb).
  pose proof (quiet_last _ _ _ _ (who e) Hm Hq) as L2.
  unfold last_of in L2 at 2. cbn [sched_new tasks] in L2. rewrite nth_error_map, Hn in L2. cbn in L2.
  rewrite (run_task_due _ _ _ _ _ He L2). rewrite Z.sub_0_r. unfold u32. rewrite Zmod_mod. lia.
Qed.

(** A task's delay is its own business: no other body changes it. *)
Definition delay_of (i : nat) (ts : list tobj) : option Z := option_map tdelay (nth_error ts i).
Hypothesis Hown : forall i j w ts, i <> j -> delay_of j (snd (body i w ts)) = delay_of j ts.

Lemma quiet_delay : forall ts s s' vs i, sched_run body ts s = Ok (s', vs) ->
  (forall v, In v vs -> who v = i -> ran v = false) -> delay_of i (tasks s') = delay_of i (tasks s).
Proof.
  induction ts as [|t ts IH]; intros s s' vs i H Hq; cbn [sched_run] in H.
  - injection H as <- <-. reflexivity.
  - destruct (run_task body t s) as [[s1 v]|] eqn:E; [|discriminate]. cbn [bind] in *.
    destruct (sched_run body ts s1) as [[s3 vs3]|] eqn:E2; [|discriminate]. cbn [bind] in H. injection H as <- <-.
    rewrite (IH _ _ _ _ E2) by (intros; apply Hq; [now right|assumption]).
    pose proof (Hq v (or_introl eq_refl)) as Hv. clear - E Hv Hown.
    unfold run_task in E. destruct (nth_error (tasks s) (cur s)) as [o|] eqn:En; [|discriminate].
    cbv zeta in E. destruct (due (u32 t) o) eqn:D.
    + destruct (body (cur s) (world s) (list_set (tasks s) (cur s) (set_last_run (u32 t) o))) as [w1 ts1] eqn:B.
      injection E as <- <-. cbn [who ran tasks] in *.
      destruct (Nat.eq_dec (cur s) i) as [Hi|Hi]; [discriminate (Hv Hi)|].
      pose proof (Hown (cur s) i (world s) (list_set (tasks s) (cur s) (set_last_run (u32 t) o)) Hi) as HO. rewrite B in HO. cbn [snd] in HO.
      rewrite HO. unfold delay_of. rewrite nth_list_set_neq by assumption. reflexivity.
    + injection E as <- <-. reflexivity.
Qed.

(** If the body of task i leaves the delay [d], two consecutive runs of it are
    at least [d] apart. *)
Lemma min_delay_lemma : forall ts s s' pre e mid e' post d, sched_run body ts s = Ok (s', pre ++ e :: mid ++ e' :: post) ->
  who e' = who e -> ran e = true -> ran e' = true -> (forall v, In v mid -> who v = who e -> ran v = false) ->
  vtime e <= vtime e' -> (forall w l, (who e < length l)%nat -> delay_of (who e) (snd (body (who e) w l)) = Some (u16 d)) ->
  u16 d <= vtime e' - vtime e.
Proof.
  intros ts s s' pre e mid e' post d H Hw Hr Hr' Hq Ht Hd.
  assert (Hv : vdelay e' = u16 d).
  { destruct (sched_run_visits _ _ _ _ _ _ H) as (ta & tb & s1 & s2 & _ & _ & He & Hb).
    destruct (sched_run_visits _ _ _ _ _ _ Hb) as (tc & td & s3 & s4 & _ & Hm & He' & _).
    pose proof (quiet_delay _ _ _ _ _ Hm Hq) as Q.
    assert (D2 : delay_of (who e) (tasks s2) = Some (u16 d)).
    { unfold run_task in He. destruct (nth_error (tasks s1) (cur s1)) as [o|] eqn:En; [|discriminate].
      cbv zeta in He. destruct (due (u32 (vtime e)) o) eqn:D.
      - destruct (body (cur s1) (world s1) (list_set (tasks s1) (cur s1) (set_last_run (u32 (vtime e)) o))) as [w1 ts1] eqn:B.
        injection He as <- He. rewrite <- He in Hd |- *. cbn [who tasks] in *.
        specialize (Hd (world s1) (list_set (tasks s1) (cur s1) (set_last_run (u32 (vtime e)) o))). rewrite B, list_set_length' in Hd. apply Hd. apply nth_error_Some. congruence.
      - injection He as <- He. rewrite <- He in Hr. discriminate Hr. }
    rewrite D2, <- Hw in Q.
    unfold run_task in He'. destruct (nth_error (tasks s3) (cur s3)) as [o|] eqn:En; [|discriminate].
    cbv zeta in He'. match type of He' with (let '(w1, ts1) := ?r in _) = _ => destruct r as [w1 ts1] end.
    injection He' as _ He'. rewrite <- He' in Q |- *. cbn [who vdelay] in *. unfold delay_of in Q. rewrite En in Q. cbn in Q. congruence. }
  rewrite <- Hv. eapply never_early_lemma; eauto. rewrite Hv. unfold u16. lia.
Qed.
End S2.

Lemma empty_list_lemma : forall W (body : nat -> W -> list tobj -> W * list tobj) t w, run_task body t (sched_new [] w) = UB NullDeref.
Proof. reflexivity. Qed.

Lemma round_robin_lemma : forall W (body : nat -> W -> list tobj -> W * list tobj) tl w ts,
  (forall i w ts, length (snd (body i w ts)) = length ts) -> tl <> [] ->
  exists s vs, sched_run body ts (sched_new tl w) = Ok (s, vs) /\ map vtime vs = ts /\
    map who vs = map (fun k => k mod length tl)%nat (seq 0 (length ts)).
Proof.
  intros W body tl w ts Hlen Hne. assert (0 < length tl)%nat by (destruct tl; [congruence|cbn; lia]).
  destruct (sched_run_ok body Hlen ts (sched_new tl w) H) as (s & vs & E & L & C & T & M). eauto.
Qed.

Lemma block_permutation_lemma : forall W (body : nat -> W -> list tobj -> W * list tobj) tl w ts1 ts2 s1 s2 vs1 vs2,
  (forall i w ts, length (snd (body i w ts)) = length ts) -> tl <> [] ->
  sched_run body ts1 (sched_new tl w) = Ok (s1, vs1) -> length ts2 = length tl ->
  sched_run body ts2 s1 = Ok (s2, vs2) -> Permutation (map who vs2) (seq 0 (length tl)).
Proof.
  intros W body tl w ts1 ts2 s1 s2 vs1 vs2 Hlen Hne H1 Hl H2. assert (0 < length tl)%nat by (destruct tl; [congruence|cbn; lia]).
  destruct (sched_run_ok body Hlen ts1 (sched_new tl w) H) as (s & vs & E & L & C & T & M).
  rewrite H1 in E. injection E as <- <-. cbn [sched_new tasks] in L.
  destruct (sched_run_ok body Hlen ts2 s1 C) as (s & vs & E & L2 & C2 & T2 & M2).
  rewrite H2 in E. injection E as <- <-. rewrite M2, Hl, L. apply rotation_permutation. lia.
Qed.
