(** Lemmas about the line buffer model. *)
From Coq Require Import Ascii ZArith List Bool Arith Lia ZifyBool ZifyNat.
From Verif Require Import Base QueueSpec LineSpec Ring RingProofs LineRing.
Import ListNotations.
Ltac Zify.zify_post_hook ::= Z.div_mod_to_equations.

(** Abstraction: the line buffer holds the characters [q]. *)
Definition lring_is (l : lring) (q : list ascii) : Prop :=
  ring_ok (lr l) /\ contents (lr l) = q /\ lines l = u16 (Z.of_nat (line_count q)).

Lemma line_count_app : forall a b, line_count (a ++ b) = line_count a + line_count b.
Proof.
  induction a as [|c a IH]; intro b; cbn [line_count app]; [reflexivity|].
  rewrite IH. destruct (Ascii.eqb c newline); reflexivity.
Qed.

Lemma line_count_le : forall q, line_count q <= length q.
Proof.
  induction q as [|c q IH]; cbn [line_count length]; [lia|]. destruct (Ascii.eqb c newline); lia.
Qed.

Lemma lring_is_avail : forall l q, lring_is l q -> avail (lr l) = length q /\ length q <= rsize (lr l).
Proof.
  intros l q (Hok & <- & _). rewrite contents_length by apply Hok. split; [reflexivity|apply Hok].
Qed.

Lemma lring_is_empty : forall l q, lring_is l q -> ring_is_empty (lr l) = match q with [] => true | _ => false end.
Proof.
  intros l q H. destruct (lring_is_avail l q H) as [Ha _]. unfold ring_is_empty. rewrite Ha.
  destruct q; reflexivity.
Qed.

Lemma lring_is_full : forall l q, lring_is l q -> ring_is_full (lr l) = (length q =? rsize (lr l)).
Proof.
  intros l q H. destruct (lring_is_avail l q H) as [Ha _]. unfold ring_is_full. now rewrite Ha.
Qed.

Lemma lring_is_space : forall l q, lring_is l q -> ring_space (lr l) = rsize (lr l) - length q.
Proof.
  intros l q H. destruct (lring_is_avail l q H) as [Ha _]. unfold ring_space. now rewrite Ha.
Qed.

Lemma lring_new_is : forall buf, lring_is (lring_new buf) [].
Proof. intro buf. split; [apply ring_new_ok|]. split; reflexivity. Qed.

Lemma lr_push_is : forall l q c, lring_is l q -> length q < rsize (lr l) ->
  exists l', lr_push l c = Ok l' /\ lring_is l' (q ++ [c]) /\ rsize (lr l') = rsize (lr l).
Proof.
  intros l q c H Hroom. destruct (lring_is_avail l q H) as [Ha _].
  destruct H as (Hok & Hc & Hl).
  destruct (ring_push_room (lr l) c Hok ltac:(lia)) as (r' & E & Hok' & Hc' & Hs).
  unfold lr_push. rewrite E. cbn [bind]. eexists. split; [reflexivity|].
  split; [|exact Hs]. unfold lring_is; cbn [lr lines]. split; [exact Hok'|].
  split; [congruence|]. rewrite line_count_app. cbn [line_count]. unfold aeqb.
  change LF with newline. rewrite Hl. unfold u16. destruct (Ascii.eqb c newline); lia.
Qed.

Lemma lr_pull_is : forall l c q, lring_is l (c :: q) ->
  exists l', lr_pull l = Ok (c, l') /\ lring_is l' q /\ rsize (lr l') = rsize (lr l).
Proof.
  intros l c q (Hok & Hc & Hl).
  destruct (ring_pull_some (lr l) c q Hok Hc) as (r' & E & Hok' & Hc' & Hs & _).
  unfold lr_pull. rewrite E. cbn [bind]. eexists. split; [reflexivity|].
  split; [|exact Hs]. unfold lring_is; cbn [lr lines]. split; [exact Hok'|].
  split; [exact Hc'|]. rewrite Hl. cbn [line_count]. unfold aeqb. change LF with newline.
  unfold u16. destruct (Ascii.eqb c newline); lia.
Qed.

Lemma lr_flush_is : forall l q, lring_is l q -> lring_is (lr_flush l) [] /\ rsize (lr (lr_flush l)) = rsize (lr l).
Proof.
  intros l q (Hok & Hc & Hl). destruct (ring_flush_ok (lr l) (proj1 Hok)) as [H1 H2].
  split; [|reflexivity]. split; [exact H1|]. split; [exact H2|reflexivity].
Qed.

Lemma lr_push_loop_is : forall n data l q, lring_is l q -> length q + n <= rsize (lr l) -> n <= length data ->
  exists l', lr_push_loop n data l = Ok l' /\ lring_is l' (q ++ firstn n data) /\ rsize (lr l') = rsize (lr l).
Proof.
  induction n as [|n IH]; intros data l q H Hroom Hd.
  - exists l. cbn. rewrite app_nil_r. auto.
  - destruct data as [|c data]; [cbn in Hd; lia|]. cbn [lr_push_loop firstn].
    destruct (lr_push_is l q c H ltac:(lia)) as (l1 & E1 & H1 & S1). rewrite E1. cbn [bind].
    destruct (IH data l1 (q ++ [c]) H1) as (l2 & E2 & H2 & S2).
    + rewrite app_length. cbn. lia.
    + cbn in Hd. lia.
    + exists l2. rewrite E2. rewrite <- app_assoc in H2. split; [reflexivity|]. split; [exact H2|congruence].
Qed.

Lemma lr_push_many_is : forall l q data n, lring_is l q -> Nat.min n (rsize (lr l) - length q) <= length data ->
  exists l', lr_push_many l data n = Ok (l', Nat.min n (rsize (lr l) - length q)) /\
    lring_is l' (q ++ firstn (Nat.min n (rsize (lr l) - length q)) data) /\ rsize (lr l') = rsize (lr l).
Proof.
  intros l q data n H Hd. unfold lr_push_many. rewrite (lring_is_space l q H), clip.
  destruct (lring_is_avail l q H) as [_ Hle].
  destruct (lr_push_loop_is (Nat.min n (rsize (lr l) - length q)) data l q H) as (l' & E & H' & S'); [lia|lia|].
  rewrite E. cbn [bind]. eauto.
Qed.

Lemma lr_pull_loop_is : forall n l q, lring_is l q -> n <= length q ->
  exists l', lr_pull_loop n l = Ok (firstn n q, l') /\ lring_is l' (skipn n q) /\ rsize (lr l') = rsize (lr l).
Proof.
  induction n as [|n IH]; intros l q H Hn.
  - exists l. cbn. auto.
  - destruct q as [|c q]; [cbn in Hn; lia|].
    destruct (lr_pull_is l c q H) as (l1 & E1 & H1 & S1). cbn [lr_pull_loop]. rewrite E1. cbn [bind].
    destruct (IH l1 q H1) as (l2 & E2 & H2 & S2); [cbn in Hn; lia|]. rewrite E2. cbn [bind firstn skipn].
    exists l2. split; [reflexivity|]. split; [exact H2|congruence].
Qed.

Lemma lr_pull_many_is : forall l q n, lring_is l q ->
  exists l', lr_pull_many l n = Ok (firstn n q, Nat.min n (length q), l') /\
             lring_is l' (skipn n q) /\ rsize (lr l') = rsize (lr l).
Proof.
  intros l q n H. unfold lr_pull_many. destruct (lring_is_avail l q H) as [Ha _]. rewrite Ha, clip.
  destruct (lr_pull_loop_is (Nat.min n (length q)) l q H ltac:(lia)) as (l' & E & H' & S').
  rewrite E. cbn [bind]. exists l'.
  destruct (Nat.le_gt_cases n (length q)) as [Hn|Hn].
  - rewrite Nat.min_l in * by lia. auto.
  - rewrite Nat.min_r in * by lia. rewrite firstn_all in *. rewrite skipn_all in H'.
    rewrite firstn_all2, skipn_all2 by lia. auto.
Qed.

Lemma lr_readline_loop_is : forall q l c room fuel, lring_is l q -> length q <= fuel -> aeqb c LF = false ->
  exists l', lr_readline_loop fuel c room l = Ok (firstn room (fst (split_line q)), l') /\
             lring_is l' (snd (split_line q)) /\ rsize (lr l') = rsize (lr l).
Proof.
  induction q as [|x q IH]; intros l c room fuel H Hf Hc.
  - exists l. destruct fuel; cbn [lr_readline_loop]; rewrite (lring_is_empty l [] H); cbn;
      rewrite firstn_nil; auto.
  - destruct fuel as [|fuel]; [cbn in Hf; lia|]. cbn [lr_readline_loop].
    rewrite (lring_is_empty l _ H), Hc. cbn [negb andb].
    destruct (lr_pull_is l x q H) as (l1 & E1 & H1 & S1). rewrite E1. cbn [bind].
    cbn [split_line]. destruct (Ascii.eqb x newline) eqn:Ex.
    + assert (Estop : forall f rm, lr_readline_loop f x rm l1 = Ok ([], l1)).
      { intros f rm. destruct f; cbn [lr_readline_loop]; unfold aeqb; change LF with newline;
          rewrite Ex; cbn [negb]; rewrite andb_false_r; reflexivity. }
      exists l1. destruct room as [|room]; rewrite Estop; cbn [bind fst snd firstn];
        rewrite ?firstn_nil; auto.
    + destruct (split_line q) as [ln rest] eqn:Es. cbn [fst snd].
      destruct room as [|room].
      * destruct (IH l1 x 0 fuel H1 ltac:(cbn in Hf; lia) Ex) as (l2 & E2 & H2 & S2).
        exists l2. rewrite E2. cbn [fst snd firstn] in *. split; [reflexivity|]. split; [exact H2|congruence].
      * destruct (IH l1 x room fuel H1 ltac:(cbn in Hf; lia) Ex) as (l2 & E2 & H2 & S2).
        exists l2. rewrite E2. cbn [bind fst snd firstn] in *. split; [reflexivity|]. split; [exact H2|congruence].
Qed.

Lemma lr_readline_is : forall l q n, lring_is l q ->
  exists l', lr_readline l n = Ok (firstn n (fst (split_line q)), Nat.min n (length (fst (split_line q))), l') /\
             lring_is l' (snd (split_line q)) /\ rsize (lr l') = rsize (lr l).
Proof.
  intros l q n H. unfold lr_readline. destruct (lring_is_avail l q H) as [Ha _].
  destruct (lr_readline_loop_is q l NUL n (avail (lr l)) H ltac:(lia) eq_refl) as (l' & E & H' & S').
  rewrite E. cbn [bind]. rewrite firstn_length. eauto.
Qed.

(** The counter as the code keeps it: exact modulo 2^16. *)
Definition wrap_lines (o : lop) (out : qobs ascii) : qobs ascii :=
  match o, out with
  | NumLines, OCount n => OCount (Z.to_nat (u16 (Z.of_nat n)))
  | _, _ => out
  end.

Lemma lr_step_refines : forall l q o q' out, lring_is l q ->
  lq_step (rsize (lr l)) q o = Some (q', out) ->
  exists l', lr_step l o = Ok (l', wrap_lines o out) /\ lring_is l' q' /\ rsize (lr l') = rsize (lr l).
Proof.
  intros l q o q' out H Hq. destruct (lring_is_avail l q H) as [Ha Hle].
  destruct o as [[data n|x|n| | | | | | | | ]|n|]; cbn [lq_step q_step lr_step wrap_lines] in *.
  - destruct (Nat.ltb_spec (length data) n) as [|Hd]; [discriminate|]. injection Hq as <- <-.
    destruct (lr_push_many_is l q data n H ltac:(lia)) as (l' & E & H' & S'). rewrite E. cbn [bind]. eauto.
  - destruct (Nat.eqb_spec (rsize (lr l) - length q) 0) as [|Hroom]; [discriminate|]. injection Hq as <- <-.
    destruct (lr_push_is l q x H ltac:(lia)) as (l' & E & H' & S'). rewrite E. cbn [bind]. eauto.
  - injection Hq as <- <-. destruct (lr_pull_many_is l q n H) as (l' & E & H' & S'). rewrite E. cbn [bind]. eauto.
  - destruct q as [|x q]; [discriminate|]. injection Hq as <- <-.
    destruct (lr_pull_is l x q H) as (l' & E & H' & S'). rewrite E. cbn [bind]. eauto.
  - destruct q as [|x q]; [discriminate|]. injection Hq as <- <-.
    assert (Hr : ring_read (lr l) = Ok x).
    { destruct H as (Hok & Hc & _). exact (ring_read_spec (lr l) x q (proj1 Hok) Hc). }
    rewrite Hr. cbn [bind]. eauto.
  - injection Hq as <- <-. destruct (lr_flush_is l q H). eauto.
  - injection Hq as <- <-. rewrite (lring_is_empty l q H). exists l. destruct q; auto.
  - injection Hq as <- <-. rewrite (lring_is_full l q H). exists l. split; [|auto]. do 3 f_equal. lia.
  - injection Hq as <- <-. rewrite Ha. eauto.
  - injection Hq as <- <-. rewrite (lring_is_space l q H). eauto.
  - injection Hq as <- <-. eauto.
  - destruct (lr_readline_is l q n H) as (l' & E & H' & S'). destruct (split_line q) as [ln rest].
    injection Hq as <- <-. cbn [fst snd] in *. rewrite E. cbn [bind]. eauto.
  - injection Hq as <- <-. exists l. split; [|auto]. destruct H as (_ & _ & ->). reflexivity.
Qed.

Lemma lr_run_refines_wrap : forall os l q q' outs, lring_is l q ->
  lq_run (rsize (lr l)) q os = Some (q', outs) ->
  exists l', lr_run l os = Ok (l', map (fun p => wrap_lines (fst p) (snd p)) (combine os outs)) /\
             lring_is l' q' /\ rsize (lr l') = rsize (lr l).
Proof.
  induction os as [|o os IH]; intros l q q' outs H Hq; cbn [lq_run lr_run] in *.
  - injection Hq as <- <-. eauto.
  - destruct (lq_step (rsize (lr l)) q o) as [[q1 out]|] eqn:E1; [|discriminate].
    destruct (lq_run (rsize (lr l)) q1 os) as [[q2 outs2]|] eqn:E2; [|discriminate]. injection Hq as <- <-.
    destruct (lr_step_refines l q o q1 out H E1) as (l1 & E3 & H1 & S1). rewrite E3. cbn [bind].
    rewrite <- S1 in E2. destruct (IH l1 q1 q2 outs2 H1 E2) as (l2 & E4 & H2 & S2).
    rewrite E4. cbn [bind combine map fst snd]. exists l2. split; [reflexivity|]. split; [exact H2|congruence].
Qed.

(** A legal queue never exceeds its capacity. *)
Lemma lq_step_cap : forall cap q o q' out, length q <= cap -> lq_step cap q o = Some (q', out) -> length q' <= cap.
Proof.
  intros cap q o q' out Hle Hq. destruct o as [[data n|x|n| | | | | | | | ]|n|]; cbn [lq_step q_step] in *;
    try (injection Hq as <- <-; cbn; lia).
  - destruct (Nat.ltb_spec (length data) n); [discriminate|]. injection Hq as <- <-.
    rewrite app_length, firstn_length. lia.
  - destruct (Nat.eqb_spec (cap - length q) 0); [discriminate|]. injection Hq as <- <-.
    rewrite app_length. cbn. lia.
  - injection Hq as <- <-. rewrite skipn_length. lia.
  - destruct q; [discriminate|]. injection Hq as <- <-. cbn in Hle. lia.
  - destruct q; [discriminate|]. injection Hq as <- <-. exact Hle.
  - assert (Hs : length (snd (split_line q)) <= length q).
    { clear. induction q as [|c q IH]; cbn [split_line length]; [auto|].
      destruct (Ascii.eqb c newline); cbn [snd]; [lia|]. destruct (split_line q). cbn [snd] in *. lia. }
    destruct (split_line q) as [ln rest]. injection Hq as <- <-. cbn [snd] in Hs. lia.
Qed.

Lemma wrap_lines_id : forall cap q o q' out, length q <= cap -> (Z.of_nat cap < 65536)%Z ->
  lq_step cap q o = Some (q', out) -> wrap_lines o out = out.
Proof.
  intros cap q o q' out Hle Hcap Hq. destruct o as [o|n|]; [reflexivity|reflexivity|].
  cbn [lq_step] in Hq. injection Hq as <- <-. cbn [wrap_lines]. f_equal.
  pose proof (line_count_le q). unfold u16. lia.
Qed.

Lemma combine_wrap_id : forall os cap q q' outs, length q <= cap -> (Z.of_nat cap < 65536)%Z ->
  lq_run cap q os = Some (q', outs) -> map (fun p => wrap_lines (fst p) (snd p)) (combine os outs) = outs.
Proof.
  induction os as [|o os IH]; intros cap q q' outs Hle Hcap Hq; cbn [lq_run] in Hq.
  - injection Hq as <- <-. reflexivity.
  - destruct (lq_step cap q o) as [[q1 out]|] eqn:E1; [|discriminate].
    destruct (lq_run cap q1 os) as [[q2 outs2]|] eqn:E2; [|discriminate]. injection Hq as <- <-.
    cbn [combine map fst snd]. f_equal.
    + exact (wrap_lines_id cap q o q1 out Hle Hcap E1).
    + exact (IH cap q1 q2 outs2 (lq_step_cap cap q o q1 out Hle E1) Hcap E2).
Qed.

Lemma line_fifo_lemma : forall buf ops q outs, (Z.of_nat (length buf) < 65536)%Z ->
  lq_run (length buf) [] ops = Some (q, outs) ->
  exists l, lr_run (lring_new buf) ops = Ok (l, outs).
Proof.
  intros buf ops q outs Hcap H.
  destruct (lr_run_refines_wrap ops (lring_new buf) [] q outs (lring_new_is buf) H) as (l & E & _).
  rewrite (combine_wrap_id ops (length buf) [] q outs (Nat.le_0_l _) Hcap H) in E. eauto.
Qed.

Lemma line_fifo_mod_lemma : forall buf ops q outs,
  lq_run (length buf) [] ops = Some (q, outs) ->
  exists l, lr_run (lring_new buf) (ops ++ [NumLines]) =
    Ok (l, map (fun p => wrap_lines (fst p) (snd p)) (combine ops outs) ++
           [OCount (Z.to_nat (Z.of_nat (line_count q) mod 65536))]).
Proof.
  intros buf ops q outs H.
  destruct (lr_run_refines_wrap ops (lring_new buf) [] q outs (lring_new_is buf) H) as (l & E & Hl & _).
  exists l.
  assert (Happ : forall os l0 l1 o1, lr_run l0 os = Ok (l1, o1) ->
            lr_run l0 (os ++ [NumLines]) = Ok (l1, o1 ++ [OCount (Z.to_nat (lines l1))])).
  { clear. induction os as [|o os IH]; intros l0 l1 o1 H; cbn [lr_run app] in *.
    - injection H as <- <-. reflexivity.
    - destruct (lr_step l0 o) as [[l2 out]|u]; [|discriminate]. cbn [bind] in *.
      destruct (lr_run l2 os) as [[l3 outs]|u] eqn:E; [|discriminate]. cbn [bind] in H. injection H as <- <-.
      rewrite (IH _ _ _ E). reflexivity. }
  rewrite (Happ _ _ _ _ E). destruct Hl as (_ & _ & ->). reflexivity.
Qed.

Lemma line_count_repeat : forall n, line_count (repeat newline n) = n.
Proof. induction n as [|n IH]; cbn; [reflexivity|]. now rewrite IH. Qed.

Lemma counter_wrap_lemma : forall buf n, Z.of_nat n = 65536%Z -> length buf = n ->
  exists l, lr_run (lring_new buf) [Plain (PushMany (repeat newline n) n); Plain IsFull; NumLines] =
    Ok (l, [OCount n; OBool true; OCount 0]).
Proof.
  intros buf n Hn Hb.
  assert (Hq : lq_run (length buf) [] [Plain (PushMany (repeat newline n) n); Plain IsFull]
               = Some (repeat newline n, [OCount n; OBool true])).
  { cbn [lq_run lq_step q_step]. rewrite repeat_length, Nat.ltb_irrefl. cbn [length app].
    rewrite Hb, Nat.sub_0_r, Nat.min_id.
    replace (firstn n (repeat newline n)) with (repeat newline n).
    2:{ symmetry. apply firstn_all2. rewrite repeat_length. auto. }
    cbn [app]. rewrite repeat_length, Nat.sub_diag. reflexivity. }
  destruct (line_fifo_mod_lemma buf _ _ _ Hq) as (l & E). exists l.
  cbn [app] in E. rewrite E. rewrite line_count_repeat, Hn. reflexivity.
Qed.

Lemma counter_mod_lemma : forall buf ops q outs,
  lq_run (length buf) [] ops = Some (q, outs) ->
  exists l outs', lr_run (lring_new buf) (ops ++ [NumLines]) =
    Ok (l, outs' ++ [OCount (Z.to_nat (Z.of_nat (line_count q) mod 65536))]).
Proof. intros buf ops q outs H. destruct (line_fifo_mod_lemma buf ops q outs H) as (l & E). eauto. Qed.

Lemma lq_run_app : forall os1 os2 cap q,
  lq_run cap q (os1 ++ os2) =
  match lq_run cap q os1 with
  | None => None
  | Some (q1, o1) => match lq_run cap q1 os2 with None => None | Some (q2, o2) => Some (q2, o1 ++ o2) end
  end.
Proof.
  induction os1 as [|o os1 IH]; intros os2 cap q; cbn [lq_run app].
  - destruct (lq_run cap q os2) as [[q2 o2]|]; reflexivity.
  - destruct (lq_step cap q o) as [[q1 out]|]; [|reflexivity]. rewrite IH.
    destruct (lq_run cap q1 os1) as [[q2 o2]|]; [|reflexivity].
    destruct (lq_run cap q2 os2) as [[q3 o3]|]; reflexivity.
Qed.

Lemma lq_run_cap : forall os cap q q' outs, length q <= cap -> lq_run cap q os = Some (q', outs) -> length q' <= cap.
Proof.
  induction os as [|o os IH]; intros cap q q' outs Hle H; cbn [lq_run] in H.
  - injection H as <- <-. exact Hle.
  - destruct (lq_step cap q o) as [[q1 out]|] eqn:E; [|discriminate].
    destruct (lq_run cap q1 os) as [[q2 o2]|] eqn:E2; [|discriminate]. injection H as <- <-.
    exact (IH _ _ _ _ (lq_step_cap _ _ _ _ _ Hle E) E2).
Qed.

Lemma split_line_spec : forall q line rest, split_line q = (line, rest) ->
  line ++ rest = q /\
  ((exists body, line = body ++ [newline] /\ ~ In newline body) \/ (rest = [] /\ ~ In newline line)).
Proof.
  induction q as [|c q IH]; intros line rest H; cbn [split_line] in H.
  - injection H as <- <-. split; [reflexivity|]. right. split; [reflexivity|]. intros [].
  - destruct (Ascii.eqb_spec c newline) as [->|Hne].
    + injection H as <- <-. split; [reflexivity|]. left. exists []. split; [reflexivity|]. intros [].
    + destruct (split_line q) as [l r] eqn:E. injection H as <- <-.
      destruct (IH l r eq_refl) as [<- Hcase]. split; [reflexivity|].
      destruct Hcase as [(body & -> & Hb)|(-> & Hl)].
      * left. exists (c :: body). split; [reflexivity|]. intros [Hc|Hc]; [congruence|auto].
      * right. split; [reflexivity|]. intros [Hc|Hc]; [congruence|auto].
Qed.

Lemma readline_lemma : forall buf ops q outs n line rest,
  (Z.of_nat (length buf) < 65536)%Z ->
  lq_run (length buf) [] ops = Some (q, outs) -> split_line q = (line, rest) ->
  exists l, lr_run (lring_new buf) (ops ++ [ReadLine n; Plain (PullMany (length buf))]) =
    Ok (l, outs ++ [OData (firstn n line) (Nat.min n (length line)); OData rest (length rest)]).
Proof.
  intros buf ops q outs n line rest Hcap H Hs.
  assert (Hq := lq_run_cap ops (length buf) [] q outs (Nat.le_0_l _) H).
  destruct (split_line_spec q line rest Hs) as [Happ _].
  assert (Hr : length rest <= length buf) by (rewrite <- Happ, app_length in Hq; lia).
  eapply line_fifo_lemma with (q := []); [exact Hcap|].
  rewrite lq_run_app, H. cbn [lq_run lq_step q_step]. rewrite Hs.
  rewrite (firstn_all2 rest), (skipn_all2 rest), (Nat.min_r (length buf) (length rest)) by exact Hr. reflexivity.
Qed.
