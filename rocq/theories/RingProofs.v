(** Lemmas about the circular buffer model. *)
From Coq Require Import List Bool Arith Lia.
From Verif Require Import Base QueueSpec Ring.
Import ListNotations.

Lemma list_ext_nth : forall A (l l' : list A),
  (forall i, nth_error l i = nth_error l' i) -> l = l'.
Proof.
  induction l as [|x l IH]; intros [|y l'] H.
  - reflexivity.
  - specialize (H 0); discriminate.
  - specialize (H 0); discriminate.
  - pose proof (H 0) as H0; injection H0 as ->. f_equal.
    apply IH. intro i. exact (H (S i)).
Qed.

Lemma list_set_length : forall A (l : list A) i x, length (list_set l i x) = length l.
Proof. induction l as [|h t IH]; intros [|i] x; cbn; auto. Qed.

Lemma nth_error_list_set : forall A (l : list A) i x j,
  nth_error (list_set l i x) j =
  if (j =? i) && (i <? length l) then Some x else nth_error l j.
Proof.
  induction l as [|h t IH]; intros i x j.
  - destruct i, j; cbn; rewrite ?andb_false_r; reflexivity.
  - destruct i as [|i], j as [|j]; try reflexivity.
    cbn [list_set nth_error length]. rewrite IH. cbn [Nat.eqb].
    replace (S i <? S (length t)) with (i <? length t) by reflexivity. reflexivity.
Qed.

Lemma nth_error_firstn : forall A n (l : list A) i,
  nth_error (firstn n l) i = if i <? n then nth_error l i else None.
Proof.
  induction n as [|n IH]; intros l i.
  - destruct i; reflexivity.
  - destruct l as [|x l].
    + rewrite firstn_nil. destruct i; cbn [nth_error]; destruct (_ <? _); reflexivity.
    + destruct i as [|i]; [reflexivity|]. cbn [firstn nth_error]. rewrite IH. reflexivity.
Qed.

Lemma nth_error_skipn : forall A n (l : list A) i,
  nth_error (skipn n l) i = nth_error l (n + i).
Proof.
  induction n as [|n IH]; intros l i; [reflexivity|].
  destruct l as [|x l]; cbn; [destruct i; reflexivity|]. apply IH.
Qed.

Lemma nth_error_app : forall A (l l' : list A) i,
  nth_error (l ++ l') i = if i <? length l then nth_error l i else nth_error l' (i - length l).
Proof.
  intros A l l' i. destruct (Nat.ltb_spec i (length l)).
  - now apply nth_error_app1.
  - now apply nth_error_app2.
Qed.

Ltac rc := cbn [whead rhead avail rsize mem].

Section Ring.
Context {A : Type}.
Implicit Types (r : ring A).

(** Structural well-formedness, kept by every operation sequence. *)
Definition ring_wf r : Prop :=
  length (mem r) = rsize r /\ avail r <= rsize r /\
  (rsize r = 0 -> rhead r = 0 /\ whead r = 0) /\
  (0 < rsize r -> rhead r < rsize r /\ whead r < rsize r).

(** Position [i] after head [h] in an array of [size] entries. *)
Definition idx (size h i : nat) : nat := if h + i <? size then h + i else h + i - size.

(** The write head is where the queued elements end. *)
Definition ring_ok r : Prop :=
  ring_wf r /\ (0 < rsize r -> whead r = idx (rsize r) (rhead r) (avail r)).

(** The queued elements, oldest first. *)
Definition contents r : list A := firstn (avail r) (skipn (rhead r) (mem r) ++ mem r).

Lemma contents_nth : forall r i, ring_wf r ->
  nth_error (contents r) i =
  if i <? avail r then nth_error (mem r) (idx (rsize r) (rhead r) i) else None.
Proof.
  intros r i (Hl & Ha & H0 & Hp). unfold contents.
  rewrite nth_error_firstn. destruct (Nat.ltb_spec i (avail r)) as [Hi|Hi]; [|reflexivity].
  rewrite nth_error_app, skipn_length, nth_error_skipn, Hl. unfold idx.
  destruct Hp as [Hr Hw]; [lia|].
  destruct (Nat.ltb_spec i (rsize r - rhead r)) as [H|H];
  destruct (Nat.ltb_spec (rhead r + i) (rsize r)) as [H'|H']; try lia; try reflexivity.
  f_equal. lia.
Qed.

Lemma contents_length : forall r, ring_wf r -> length (contents r) = avail r.
Proof.
  intros r (Hl & Ha & H0 & Hp). unfold contents.
  rewrite firstn_length, app_length, skipn_length. lia.
Qed.

Lemma contents_new : forall buf, contents (ring_new buf) = @nil A.
Proof. reflexivity. Qed.

Lemma ring_new_ok : forall buf : list A, ring_ok (ring_new buf).
Proof.
  intro buf. unfold ring_ok, ring_wf, ring_new, idx; cbn [whead rhead avail rsize mem].
  repeat split; try lia. destruct (Nat.ltb_spec (0 + 0) (length buf)); lia.
Qed.

Lemma incr_head_lt : forall size h, 0 < size -> incr_head size h < size.
Proof. intros size h H. unfold incr_head. destruct (Nat.leb_spec size (S h)); lia. Qed.

Lemma incr_head_0 : forall h, incr_head 0 h = 0.
Proof. reflexivity. Qed.

(** *** Element operations *)

Lemma ring_push_spec : forall r x, ring_wf r -> 0 < rsize r ->
  ring_push r x = Ok (mkRing (incr_head (rsize r) (whead r)) (rhead r)
                        (if avail r <? rsize r then S (avail r) else avail r)
                        (rsize r) (list_set (mem r) (whead r) x)).
Proof.
  intros r x (Hl & Ha & H0 & Hp) Hs. unfold ring_push, ring_store, wr.
  destruct (Hp Hs) as [Hr Hw]. rewrite Hl.
  destruct (Nat.ltb_spec (whead r) (rsize r)); [reflexivity|lia].
Qed.

Lemma rd_ok : forall (l : list A) i, i < length l -> exists x, nth_error l i = Some x /\ rd l i = Ok x.
Proof.
  intros l i H. unfold rd. destruct (nth_error l i) as [x|] eqn:E.
  - eauto.
  - apply nth_error_None in E. lia.
Qed.

Lemma ring_pull_spec : forall r, ring_wf r -> 0 < rsize r ->
  exists x, nth_error (mem r) (rhead r) = Some x /\
  ring_pull r = Ok (x, mkRing (whead r) (incr_head (rsize r) (rhead r)) (avail r - 1)
                        (rsize r) (mem r)).
Proof.
  intros r (Hl & Ha & H0 & Hp) Hs. destruct (Hp Hs) as [Hr Hw].
  destruct (rd_ok (mem r) (rhead r)) as (x & Hx & Hrd); [lia|].
  exists x; split; [exact Hx|]. unfold ring_pull, ring_fetch. rewrite Hrd. cbn.
  destruct (avail r) as [|a]; cbn; [reflexivity|].
  replace (a - 0) with a by lia. reflexivity.
Qed.

Lemma ring_push_wf : forall r x r', ring_wf r -> ring_push r x = Ok r' -> ring_wf r'.
Proof.
  intros r x r' Hwf H. destruct (Nat.eq_dec (rsize r) 0) as [Hz|Hz].
  - exfalso. destruct Hwf as (Hl & _). unfold ring_push, ring_store, wr in H.
    rewrite Hl, Hz in H. cbn in H. discriminate.
  - rewrite ring_push_spec in H by (auto; lia). injection H as <-.
    destruct Hwf as (Hl & Ha & H0 & Hp).
    unfold ring_wf; rc. rewrite list_set_length.
    pose proof (incr_head_lt (rsize r) (whead r) ltac:(lia)).
    destruct (Nat.ltb_spec (avail r) (rsize r)); repeat split; try lia;
      apply Hp; lia.
Qed.

Lemma ring_pull_wf : forall r x r', ring_wf r -> ring_pull r = Ok (x, r') -> ring_wf r'.
Proof.
  intros r x r' Hwf H. destruct (Nat.eq_dec (rsize r) 0) as [Hz|Hz].
  - exfalso. destruct Hwf as (Hl & _). unfold ring_pull, ring_fetch, rd in H.
    destruct (mem r); [|cbn in Hl; lia]. destruct (rhead r); cbn in H; discriminate.
  - destruct (ring_pull_spec r Hwf ltac:(lia)) as (y & Hy & E). rewrite E in H.
    injection H as <- <-. destruct Hwf as (Hl & Ha & H0 & Hp).
    pose proof (incr_head_lt (rsize r) (rhead r) ltac:(lia)).
    unfold ring_wf; rc. repeat split; try lia; apply Hp; lia.
Qed.

Lemma ring_push_room : forall r x, ring_ok r -> avail r < rsize r ->
  exists r', ring_push r x = Ok r' /\ ring_ok r' /\ contents r' = contents r ++ [x]
             /\ rsize r' = rsize r.
Proof.
  intros r x [Hwf Hw] Hroom.
  eexists. split; [apply ring_push_spec; auto; lia|].
  assert (Hwf' := ring_push_wf r x _ Hwf (ring_push_spec r x Hwf ltac:(lia))).
  specialize (Hw ltac:(lia)).
  destruct Hwf as (Hl & Ha & H0 & Hp). destruct (Hp ltac:(lia)) as [Hr Hwl].
  split; [split; [exact Hwf'|]|split; [|reflexivity]].
  - rc. intros _. destruct (Nat.ltb_spec (avail r) (rsize r)); [|lia].
    rewrite Hw. unfold incr_head, idx.
    repeat match goal with |- context [?a <? ?b] => destruct (Nat.ltb_spec a b)
                         | |- context [?a <=? ?b] => destruct (Nat.leb_spec a b) end; lia.
  - apply list_ext_nth. intro i. rewrite contents_nth by exact Hwf'. rc.
    rewrite nth_error_app, contents_length, contents_nth by (unfold ring_wf; auto).
    rewrite nth_error_list_set, Hl.
    destruct (Nat.ltb_spec (avail r) (rsize r)) as [_|]; [|lia].
    destruct (Nat.ltb_spec (whead r) (rsize r)) as [_|]; [|lia]. rewrite andb_true_r.
    destruct (Nat.ltb_spec i (avail r)) as [Hi|Hi].
    + destruct (Nat.ltb_spec i (S (avail r))) as [_|]; [|lia].
      destruct (Nat.eqb_spec (idx (rsize r) (rhead r) i) (whead r)) as [E|_]; [|reflexivity].
      exfalso. rewrite Hw in E. unfold idx in E.
      destruct (Nat.ltb_spec (rhead r + i) (rsize r));
      destruct (Nat.ltb_spec (rhead r + avail r) (rsize r)); lia.
    + destruct (Nat.ltb_spec i (S (avail r))) as [Hi'|Hi'].
      * replace i with (avail r) by lia. rewrite Hw, Nat.eqb_refl, Nat.sub_diag. reflexivity.
      * destruct (i - avail r) as [|[|k]] eqn:E; cbn; try lia; reflexivity.
Qed.

Lemma ring_pull_contents : forall r x r', ring_wf r -> 0 < avail r ->
  ring_pull r = Ok (x, r') -> contents r = x :: contents r'.
Proof.
  intros r x r' Hwf Ha H.
  assert (Hs : 0 < rsize r) by (destruct Hwf; lia).
  assert (Hwf' := ring_pull_wf r x r' Hwf H).
  destruct (ring_pull_spec r Hwf Hs) as (y & Hy & E). rewrite E in H. injection H as <- Hr'.
  assert (Hwf0 := Hwf). destruct Hwf0 as (Hl & Hav & H0 & Hp). destruct (Hp Hs) as [Hr Hw].
  apply list_ext_nth. intro i. rewrite contents_nth by exact Hwf.
  destruct i as [|i].
  - destruct (Nat.ltb_spec 0 (avail r)); [|lia]. cbn. unfold idx. rewrite Nat.add_0_r.
    destruct (Nat.ltb_spec (rhead r) (rsize r)); [exact Hy|lia].
  - cbn [nth_error]. rewrite contents_nth by exact Hwf'. subst r'. rc.
    destruct (Nat.ltb_spec (S i) (avail r)); destruct (Nat.ltb_spec i (avail r - 1)); try lia; auto.
    f_equal. unfold idx, incr_head.
    repeat match goal with |- context [?a <? ?b] => destruct (Nat.ltb_spec a b)
                         | |- context [?a <=? ?b] => destruct (Nat.leb_spec a b) end; lia.
Qed.

Lemma ring_pull_some : forall r x q, ring_ok r -> contents r = x :: q ->
  exists r', ring_pull r = Ok (x, r') /\ ring_ok r' /\ contents r' = q /\ rsize r' = rsize r
             /\ avail r = S (avail r').
Proof.
  intros r x q [Hwf Hw] Hc.
  assert (Ha : 0 < avail r) by (rewrite <- contents_length, Hc by exact Hwf; cbn; lia).
  assert (Hs : 0 < rsize r) by (destruct Hwf; lia).
  destruct (ring_pull_spec r Hwf Hs) as (y & Hy & E).
  pose proof (ring_pull_contents r y _ Hwf Ha E) as Hc'. rewrite Hc in Hc'.
  injection Hc' as <- Hq.
  eexists. split; [exact E|]. split; [|split; [symmetry; exact Hq|split; [reflexivity|cbn; lia]]].
  split; [exact (ring_pull_wf r x _ Hwf E)|].
  rc. intros _. rewrite (Hw Hs). destruct Hwf as (Hl & Hav & H0 & Hp). destruct (Hp Hs).
  unfold idx, incr_head.
  repeat match goal with |- context [?a <? ?b] => destruct (Nat.ltb_spec a b)
                       | |- context [?a <=? ?b] => destruct (Nat.leb_spec a b) end; lia.
Qed.

Lemma ring_read_spec : forall r x q, ring_wf r -> contents r = x :: q -> ring_read r = Ok x.
Proof.
  intros r x q Hwf Hc.
  assert (Ha : 0 < avail r) by (rewrite <- contents_length, Hc by exact Hwf; cbn; lia).
  pose proof (contents_nth r 0 Hwf) as H. rewrite Hc in H. cbn [nth_error] in H.
  destruct (Nat.ltb_spec 0 (avail r)); [|lia].
  unfold ring_read, rd. destruct Hwf as (Hl & Hav & H0' & Hp).
  destruct (Hp ltac:(lia)) as [Hr Hw]. unfold idx in H. rewrite Nat.add_0_r in H.
  destruct (Nat.ltb_spec (rhead r) (rsize r)); [|lia]. rewrite <- H. reflexivity.
Qed.

Lemma ring_flush_ok : forall r, ring_wf r -> ring_ok (ring_flush r) /\ contents (ring_flush r) = [].
Proof.
  intros r (Hl & Ha & H0 & Hp). split; [|reflexivity]. unfold ring_ok, ring_wf, ring_flush, idx; cbn [whead rhead avail rsize mem].
  repeat split; try lia. destruct (Nat.ltb_spec (0 + 0) (rsize r)); lia.
Qed.

(** *** Bulk operations *)

(** Writing [avail] back into a ring. *)
Definition set_avail r n : ring A := mkRing (whead r) (rhead r) n (rsize r) (mem r).

Lemma store_loop_indep : forall n d (ra : ring A) a, ring_store_loop n d (set_avail ra a) =
  match ring_store_loop n d ra with Ok rb => Ok (set_avail rb a) | UB u => UB u end.
Proof.
  induction n as [|n IH]; intros d ra a; [reflexivity|].
  destruct d as [|x d]; [reflexivity|]. cbn [ring_store_loop].
  unfold ring_store at 1. cbn [mem whead rsize set_avail rhead avail].
  unfold ring_store at 1. destruct (wr (mem ra) (whead ra) x) as [m|u]; [|reflexivity].
  cbn [bind]. rewrite <- IH. reflexivity.
Qed.

Lemma fetch_loop_indep : forall n (ra : ring A) a, ring_fetch_loop n (set_avail ra a) =
  match ring_fetch_loop n ra with Ok (l, rb) => Ok (l, set_avail rb a) | UB u => UB u end.
Proof.
  induction n as [|n IH]; intros ra a; [reflexivity|].
  cbn [ring_fetch_loop]. unfold ring_fetch at 1. cbn [mem whead rsize set_avail rhead avail].
  unfold ring_fetch at 1. destruct (rd (mem ra) (rhead ra)) as [m|u]; [|reflexivity].
  cbn [bind].
  change (mkRing (whead ra) (incr_head (rsize ra) (rhead ra)) a (rsize ra) (mem ra))
    with (set_avail (mkRing (whead ra) (incr_head (rsize ra) (rhead ra)) (avail ra) (rsize ra) (mem ra)) a).
  rewrite IH. destruct (ring_fetch_loop n _) as [[l rb]|u]; reflexivity.
Qed.

(** The bulk loop does what repeated element pushes do, apart from the counter. *)
Lemma ring_store_loop_spec : forall n data r, ring_wf r -> avail r + n <= rsize r -> n <= length data ->
  exists r', ring_store_loop n data r = Ok r' /\ ring_wf (set_avail r' (avail r + n)) /\
    rsize r' = rsize r /\ avail r' = avail r /\ rhead r' = rhead r /\
    (ring_ok r -> ring_ok (set_avail r' (avail r + n)) /\
                  contents (set_avail r' (avail r + n)) = contents r ++ firstn n data).
Proof.
  induction n as [|n IH]; intros data r Hwf Hroom Hd.
  - exists r. cbn [ring_store_loop]. rewrite Nat.add_0_r.
    assert (E : set_avail r (avail r) = r) by (destruct r; reflexivity). rewrite E.
    do 5 (split; [first [reflexivity|exact Hwf]|]).
    intro Hok. split; [exact Hok|]. cbn [firstn]. now rewrite app_nil_r.
  - destruct data as [|x data]; [cbn in Hd; lia|]. cbn [ring_store_loop].
    pose proof (ring_push_spec r x Hwf ltac:(lia)) as Hp.
    unfold ring_push in Hp. destruct (ring_store r x) as [r1|u] eqn:E1; [|discriminate].
    cbn [bind] in *. injection Hp as W R Av Sz M.
    assert (Hav1 : avail r1 = avail r).
    { unfold ring_store in E1. destruct (wr (mem r) (whead r) x); [|discriminate].
      cbn in E1. injection E1 as <-. reflexivity. }
    assert (Epush : ring_push r x = Ok (set_avail r1 (S (avail r)))).
    { unfold ring_push. rewrite E1. cbn [bind]. unfold set_avail. rewrite Hav1, Sz.
      destruct (Nat.ltb_spec (avail r) (rsize r)); [reflexivity|lia]. }
    assert (Hwf1 := ring_push_wf _ _ _ Hwf Epush).
    destruct (IH data (set_avail r1 (S (avail r))) Hwf1) as (r2 & E2 & Hwf2 & Hs2 & Ha2 & Hr2 & Hok2).
    { cbn. rewrite Sz. lia. } { cbn in Hd. lia. }
    pose proof store_loop_indep as Hindep.
    rewrite Hindep in E2. destruct (ring_store_loop n data r1) as [r3|u] eqn:E3; [|discriminate].
    injection E2 as <-. cbn [bind]. exists r3.
    cbn [rsize avail rhead set_avail] in *.
    assert (Havr3 : avail r3 = avail r).
    { specialize (Hindep n data r1 (avail r)).
      assert (Es : set_avail r1 (avail r) = r1) by (destruct r1; cbn in *; subst; reflexivity).
      rewrite Es, E3 in Hindep. injection Hindep as ->. reflexivity. }
    replace (avail r + S n) with (S (avail r) + n) by lia.
    split; [reflexivity|]. split; [exact Hwf2|]. split; [congruence|].
    split; [exact Havr3|]. split; [congruence|].
    intro Hok. destruct (ring_push_room r x Hok ltac:(lia)) as (r4 & E4 & Hok4 & Hc4 & _).
    rewrite Epush in E4. injection E4 as <-.
    destruct (Hok2 Hok4) as [Hok3 Hc3]. split; [exact Hok3|].
    unfold set_avail in *; cbn [whead rhead avail rsize mem] in *.
    rewrite Hc3, Hc4, <- app_assoc. reflexivity.
Qed.

Lemma clip : forall a n, (if a <? n then a else n) = Nat.min n a.
Proof. intros a n. destruct (Nat.ltb_spec a n); lia. Qed.

Lemma ring_push_many_wf : forall r data n, ring_wf r -> Nat.min n (ring_space r) <= length data ->
  exists r', ring_push_many r data n = Ok (r', Nat.min n (ring_space r)) /\ ring_wf r' /\
    rsize r' = rsize r /\ avail r' = avail r + Nat.min n (ring_space r) /\
    (ring_ok r -> ring_ok r' /\ contents r' = contents r ++ firstn (Nat.min n (ring_space r)) data).
Proof.
  intros r data n Hwf Hd. unfold ring_push_many. rewrite clip.
  set (k := Nat.min n (ring_space r)) in *.
  assert (Hk : avail r + k <= rsize r) by (destruct Hwf as (_ & Ha & _); unfold ring_space in k; lia).
  destruct (ring_store_loop_spec k data r Hwf Hk Hd) as (r' & E & Hwf' & Hs & Ha & Hr & Hok).
  rewrite E. cbn [bind]. rewrite Ha. eexists. split; [reflexivity|].
  split; [exact Hwf'|]. split; [exact Hs|]. split; [reflexivity|exact Hok].
Qed.

Lemma ring_fetch_loop_spec : forall n r, ring_wf r -> n <= avail r ->
  exists l r', ring_fetch_loop n r = Ok (l, r') /\ ring_wf (set_avail r' (avail r - n)) /\
    rsize r' = rsize r /\ avail r' = avail r /\ whead r' = whead r /\ mem r' = mem r /\
    contents r = l ++ contents (set_avail r' (avail r - n)) /\ length l = n /\
    (ring_ok r -> ring_ok (set_avail r' (avail r - n))).
Proof.
  induction n as [|n IH]; intros r Hwf Hn.
  - exists [], r. cbn [ring_fetch_loop]. rewrite Nat.sub_0_r.
    assert (E : set_avail r (avail r) = r) by (destruct r; reflexivity). rewrite E.
    do 8 (split; [first [reflexivity|exact Hwf]|]). auto.
  - cbn [ring_fetch_loop].
    assert (Hs : 0 < rsize r) by (destruct Hwf; lia).
    destruct (ring_pull_spec r Hwf Hs) as (x & Hx & E).
    assert (E' : ring_fetch r = Ok (x, mkRing (whead r) (incr_head (rsize r) (rhead r)) (avail r) (rsize r) (mem r))).
    { unfold ring_fetch, rd. rewrite Hx. reflexivity. }
    rewrite E'. cbn [bind].
    set (r1 := mkRing (whead r) (incr_head (rsize r) (rhead r)) (avail r) (rsize r) (mem r)) in *.
    assert (Hwf1 := ring_pull_wf _ _ _ Hwf E).
    assert (Hc := ring_pull_contents _ _ _ Hwf ltac:(lia) E).
    set (r1' := mkRing (whead r) (incr_head (rsize r) (rhead r)) (avail r - 1) (rsize r) (mem r)) in *.
    destruct (IH r1' Hwf1) as (l & r2 & E2 & Hwf2 & Hs2 & Ha2 & Hw2 & Hm2 & Hc2 & Hl2 & Hok2).
    { cbn. lia. }
    pose proof fetch_loop_indep as Hindep.
    change r1' with (set_avail r1 (avail r - 1)) in E2. rewrite Hindep in E2.
    destruct (ring_fetch_loop n r1) as [[l' r3]|u] eqn:E3; [|discriminate].
    injection E2 as -> <-. cbn [bind]. exists (x :: l), r3.
    cbn [rsize avail rhead whead mem set_avail] in *.
    assert (Havr3 : avail r3 = avail r).
    { specialize (Hindep n r1 (avail r)). change (set_avail r1 (avail r)) with r1 in Hindep.
      rewrite E3 in Hindep. injection Hindep as ->. reflexivity. }
    replace (avail r - S n) with (avail r - 1 - n) by lia.
    split; [reflexivity|]. split; [exact Hwf2|]. split; [exact Hs2|]. split; [exact Havr3|].
    split; [exact Hw2|]. split; [exact Hm2|].
    split; [rewrite Hc, Hc2; reflexivity|]. split; [cbn; congruence|].
    intros Hok. apply Hok2.
    destruct (ring_pull_some r x (contents r1') Hok Hc) as (r4 & E4 & Hok4 & _).
    rewrite E in E4. injection E4 as <-. exact Hok4.
Qed.

Lemma app_split_firstn : forall (l l' : list A) n, length l = n -> firstn n (l ++ l') = l /\ skipn n (l ++ l') = l'.
Proof.
  intros l l' n <-. rewrite firstn_app, skipn_app, Nat.sub_diag, firstn_all, skipn_all. cbn.
  now rewrite app_nil_r.
Qed.

Lemma ring_pull_many_wf : forall r n, ring_wf r ->
  exists r', ring_pull_many r n = Ok (firstn n (contents r), Nat.min n (avail r), r') /\ ring_wf r' /\
    rsize r' = rsize r /\ avail r' = avail r - Nat.min n (avail r) /\
    contents r' = skipn n (contents r) /\ (ring_ok r -> ring_ok r').
Proof.
  intros r n Hwf. unfold ring_pull_many. rewrite clip.
  set (k := Nat.min n (avail r)).
  destruct (ring_fetch_loop_spec k r Hwf ltac:(lia))
    as (l & r' & E & Hwf' & Hs & Ha & Hw & Hm & Hc & Hl & Hok).
  rewrite E. cbn [bind]. rewrite Ha.
  assert (Hfs : firstn n (contents r) = l /\ skipn n (contents r) = contents (set_avail r' (avail r - k))).
  { destruct (Nat.le_gt_cases n (avail r)) as [H|H].
    - rewrite Hc. apply app_split_firstn. subst k. lia.
    - assert (Hlen : length (contents r) = avail r) by (apply contents_length; exact Hwf).
      assert (H1 : contents (set_avail r' (avail r - k)) = []).
      { unfold contents. cbn [avail set_avail]. replace (avail r - k) with 0 by lia. reflexivity. }
      rewrite H1 in Hc |- *. rewrite app_nil_r in Hc. rewrite Hc.
      rewrite firstn_all2, skipn_all2 by lia. auto. }
  destruct Hfs as [Hf Hsk]. rewrite <- Hf.
  eexists. split; [reflexivity|]. split; [exact Hwf'|].
  split; [exact Hs|]. split; [reflexivity|]. split; [symmetry; exact Hsk|exact Hok].
Qed.

(** *** Refinement *)

Lemma ring_step_refines : forall r o q' out, ring_ok r ->
  q_step (rsize r) (contents r) o = Some (q', out) ->
  exists r', ring_step r o = Ok (r', out) /\ ring_ok r' /\ contents r' = q' /\ rsize r' = rsize r.
Proof.
  intros r o q' out Hok Hq. assert (Hwf := proj1 Hok).
  assert (Hlen := contents_length r Hwf).
  assert (Havs : avail r <= rsize r) by apply Hwf.
  destruct o as [data n|x|n| | | | | | | | ]; cbn [q_step ring_step] in *; rewrite ?Hlen in Hq.
  - destruct (Nat.ltb_spec (length data) n) as [|Hd]; [discriminate|]. injection Hq as <- <-.
    destruct (ring_push_many_wf r data n Hwf) as (r' & E & _ & Hs & _ & Hok'); [unfold ring_space; lia|].
    rewrite E. destruct (Hok' Hok) as [Hk Hc]. exists r'. cbn [bind]. auto.
  - destruct (Nat.eqb_spec (rsize r - avail r) 0) as [|Hroom]; [discriminate|]. injection Hq as <- <-.
    destruct (ring_push_room r x Hok ltac:(lia)) as (r' & E & Hk & Hc & Hs).
    rewrite E. cbn. eauto.
  - injection Hq as <- <-.
    destruct (ring_pull_many_wf r n Hwf) as (r' & E & _ & Hs & _ & Hc & Hk).
    rewrite E. cbn [bind]. exists r'. split; [reflexivity|auto].
  - destruct (contents r) as [|x q] eqn:Ec; [discriminate|]. injection Hq as <- <-.
    destruct (ring_pull_some r x q Hok Ec) as (r' & E & Hk & Hc & Hs & _). rewrite E. cbn. eauto.
  - destruct (contents r) as [|x q] eqn:Ec; [discriminate|]. injection Hq as <- <-.
    rewrite (ring_read_spec r x q Hwf Ec). cbn. eauto.
  - injection Hq as <- <-. destruct (ring_flush_ok r Hwf) as [Hf1 Hf2]. exists (ring_flush r). auto.
  - injection Hq as <- <-. eauto.
  - injection Hq as <- <-. exists r. split; [|split; [exact Hok|split; reflexivity]].
    do 3 f_equal. unfold ring_is_full.
    destruct (Nat.eqb_spec (avail r) (rsize r)); destruct (Nat.eqb_spec (rsize r - avail r) 0); lia.
  - injection Hq as <- <-. eauto.
  - injection Hq as <- <-. eauto.
  - injection Hq as <- <-. eauto.
Qed.

Lemma ring_run_refines : forall os r q outs, ring_ok r ->
  q_run (rsize r) (contents r) os = Some (q, outs) ->
  exists r', ring_run r os = Ok (r', outs) /\ ring_ok r' /\ contents r' = q /\ rsize r' = rsize r.
Proof.
  induction os as [|o os IH]; intros r q outs Hok H; cbn [q_run ring_run] in *.
  - injection H as <- <-. exists r. auto.
  - destruct (q_step (rsize r) (contents r) o) as [[q' out]|] eqn:E; [|discriminate].
    destruct (q_run (rsize r) q' os) as [[q2 outs']|] eqn:E2; [|discriminate]. injection H as <- <-.
    destruct (ring_step_refines r o q' out Hok E) as (r1 & E1 & Hok1 & Hc1 & Hs1).
    rewrite E1. cbn [bind]. rewrite <- Hc1, <- Hs1 in E2.
    destruct (IH r1 q2 outs' Hok1 E2) as (r2 & E3 & Hok2 & Hc2 & Hs2). rewrite E3. cbn [bind].
    exists r2. rewrite Hs2. auto.
Qed.

(** *** Arbitrary operation lists *)

Lemma ring_step_wf : forall r o, ring_wf r -> 0 < rsize r -> supplied o ->
  exists r' out, ring_step r o = Ok (r', out) /\ ring_wf r' /\ rsize r' = rsize r.
Proof.
  intros r o Hwf Hs Hsup. destruct o as [data n|x|n| | | | | | | | ]; cbn [ring_step supplied] in *;
    try (exists r; eexists; split; [reflexivity|split; [exact Hwf|reflexivity]]).
  - destruct (ring_push_many_wf r data n Hwf ltac:(lia)) as (r' & E & Hw & Hs' & _).
    rewrite E. cbn. eauto.
  - pose proof (ring_push_spec r x Hwf Hs) as E. pose proof (ring_push_wf _ _ _ Hwf E).
    rewrite E. cbn [bind]. do 2 eexists. split; [reflexivity|]. split; [assumption|reflexivity].
  - destruct (ring_pull_many_wf r n Hwf) as (r' & E & Hw & Hs' & _). rewrite E. cbn. eauto.
  - destruct (ring_pull_spec r Hwf Hs) as (x & Hx & E). pose proof (ring_pull_wf _ _ _ Hwf E).
    rewrite E. cbn [bind]. do 2 eexists. split; [reflexivity|]. split; [assumption|reflexivity].
  - destruct (ring_pull_spec r Hwf Hs) as (x & Hx & _). unfold ring_read, rd. rewrite Hx. cbn. eauto.
  - destruct (ring_flush_ok r Hwf) as [[Hw _] _]. do 2 eexists. split; [reflexivity|]. split; [exact Hw|reflexivity].
Qed.

Lemma ring_run_wf : forall os r, ring_wf r -> 0 < rsize r -> Forall supplied os ->
  exists r' outs, ring_run r os = Ok (r', outs) /\ ring_wf r' /\ rsize r' = rsize r.
Proof.
  induction os as [|o os IH]; intros r Hwf Hs Hsup; cbn [ring_run].
  - eauto.
  - inversion Hsup as [|? ? Ho Hos]; subst.
    destruct (ring_step_wf r o Hwf Hs Ho) as (r1 & out & E1 & Hw1 & Hs1).
    destruct (IH r1 Hw1 ltac:(lia) Hos) as (r2 & outs & E2 & Hw2 & Hs2).
    rewrite E1. cbn [bind]. rewrite E2. cbn [bind]. do 2 eexists. split; [reflexivity|]. split; [exact Hw2|congruence].
Qed.

Lemma ring_run_app : forall os1 os2 r,
  ring_run r (os1 ++ os2) =
  (let* (r1, o1) := ring_run r os1 in let* (r2, o2) := ring_run r1 os2 in Ok (r2, o1 ++ o2))%res.
Proof.
  induction os1 as [|o os1 IH]; intros os2 r; cbn [ring_run app].
  - cbn [bind]. destruct (ring_run r os2) as [[r2 o2]|u]; reflexivity.
  - destruct (ring_step r o) as [[r1 out]|u]; [|reflexivity]. cbn [bind]. rewrite IH.
    destruct (ring_run r1 os1) as [[r2 o2]|u]; [|reflexivity]. cbn [bind].
    destruct (ring_run r2 os2) as [[r3 o3]|u]; reflexivity.
Qed.

(** *** Bulk operations are iterated element operations *)

Lemma push_many_iter : forall n data r, ring_wf r -> avail r + n <= rsize r -> n <= length data ->
  exists r', ring_store_loop n data r = Ok r' /\
    ring_run r (map PushOne (firstn n data)) = Ok (set_avail r' (avail r + n), repeat ONone n).
Proof.
  induction n as [|n IH]; intros data r Hwf Hroom Hd.
  - exists r. split; [reflexivity|]. cbn. rewrite Nat.add_0_r. destruct r; reflexivity.
  - destruct data as [|x data]; [cbn in Hd; lia|].
    cbn [ring_store_loop firstn map ring_run ring_step repeat].
    pose proof (ring_push_spec r x Hwf ltac:(lia)) as Hp.
    pose proof (ring_push_wf _ _ _ Hwf Hp) as Hwf1.
    rewrite Hp. unfold ring_push in Hp.
    destruct (ring_store r x) as [r1|u] eqn:E1; [|discriminate].
    assert (Hav1 : avail r1 = avail r).
    { unfold ring_store in E1. destruct (wr (mem r) (whead r) x); [|discriminate].
      cbn in E1. injection E1 as <-. reflexivity. }
    cbn [bind] in *. destruct (Nat.ltb_spec (avail r) (rsize r)) as [_|]; [|lia].
    match type of Hwf1 with ring_wf ?z => set (r2 := z) in * end.
    injection Hp as W R Av Sz M.
    assert (E2 : r2 = set_avail r1 (S (avail r))).
    { unfold r2, set_avail. rewrite <- W, <- R, <- Sz, <- M, ?Sz. reflexivity. }
    destruct (IH data r2 Hwf1) as (r3 & E3 & E4); [cbn; lia|cbn in Hd; lia|].
    rewrite E2, store_loop_indep in E3. destruct (ring_store_loop n data r1) as [r5|u] eqn:E5; [|discriminate].
    injection E3 as <-. exists r5. split; [reflexivity|]. rewrite E4. cbn [bind].
    replace (avail r + S n) with (avail r2 + n) by (cbn; lia). reflexivity.
Qed.

Lemma ring_push_many_iter : forall r data n, ring_wf r -> n <= length data ->
  exists r', ring_push_many r data n = Ok (r', Nat.min n (ring_space r)) /\
    ring_run r (map PushOne (firstn (Nat.min n (ring_space r)) data))
      = Ok (r', repeat ONone (Nat.min n (ring_space r))).
Proof.
  intros r data n Hwf Hd. unfold ring_push_many. rewrite clip.
  set (k := Nat.min n (ring_space r)).
  assert (Hk : avail r + k <= rsize r) by (destruct Hwf as (_ & Ha & _); unfold ring_space in k; lia).
  destruct (ring_store_loop_spec k data r Hwf Hk ltac:(lia)) as (r' & E & _ & _ & Ha & _).
  destruct (push_many_iter k data r Hwf Hk ltac:(lia)) as (r'' & E' & E2).
  rewrite E in E'. injection E' as <-. rewrite E. cbn [bind]. rewrite Ha. eauto.
Qed.

Lemma pull_many_iter : forall n r, ring_wf r -> n <= avail r ->
  exists l r', ring_fetch_loop n r = Ok (l, r') /\
    ring_run r (repeat PullOne n) = Ok (set_avail r' (avail r - n), map OElem l).
Proof.
  induction n as [|n IH]; intros r Hwf Hn.
  - exists [], r. split; [reflexivity|]. cbn. rewrite Nat.sub_0_r. destruct r; reflexivity.
  - assert (Hs : 0 < rsize r) by (destruct Hwf; lia).
    destruct (ring_pull_spec r Hwf Hs) as (x & Hx & E).
    pose proof (ring_pull_wf _ _ _ Hwf E) as Hwf1.
    cbn [ring_fetch_loop repeat ring_run ring_step]. rewrite E. unfold ring_fetch, rd. rewrite Hx. cbn [bind].
    match type of Hwf1 with ring_wf ?z => set (r2 := z) in * end.
    destruct (IH r2 Hwf1) as (l & r3 & E3 & E4); [cbn; lia|].
    match goal with |- context [ring_fetch_loop n ?z] => set (r1 := z) in * end.
    change r2 with (set_avail r1 (avail r - 1)) in E3. rewrite fetch_loop_indep in E3.
    destruct (ring_fetch_loop n r1) as [[l' r5]|u] eqn:E5; [|discriminate].
    injection E3 as -> <-. exists (x :: l), r5. cbn [bind]. split; [reflexivity|].
    rewrite E4. cbn [bind map]. replace (avail r - S n) with (avail r2 - n) by (cbn; lia). reflexivity.
Qed.

Lemma ring_pull_many_iter : forall r n, ring_wf r ->
  exists l r', ring_pull_many r n = Ok (l, Nat.min n (avail r), r') /\
    ring_run r (repeat PullOne (Nat.min n (avail r))) = Ok (r', map OElem l).
Proof.
  intros r n Hwf. unfold ring_pull_many. rewrite clip. set (k := Nat.min n (avail r)).
  destruct (ring_fetch_loop_spec k r Hwf ltac:(lia)) as (l & r' & E & _ & _ & Ha & _).
  destruct (pull_many_iter k r Hwf ltac:(lia)) as (l2 & r2 & E2 & E3).
  rewrite E in E2. injection E2 as <- <-. rewrite E. cbn [bind]. rewrite Ha. eauto.
Qed.

(** Every history of a fresh buffer leads to a well-formed state. *)
Lemma ring_history_wf : forall os r r' outs, ring_wf r -> ring_run r os = Ok (r', outs) ->
  ring_wf r' /\ rsize r' = rsize r.
Proof.
  induction os as [|o os IH]; intros r r' outs Hwf H; cbn [ring_run] in H.
  - injection H as <- <-. auto.
  - destruct (ring_step r o) as [[r1 out]|u] eqn:E1; [|discriminate]. cbn [bind] in H.
    destruct (ring_run r1 os) as [[r2 outs2]|u] eqn:E2; [|discriminate]. cbn [bind] in H.
    injection H as <- <-.
    assert (H1 : ring_wf r1 /\ rsize r1 = rsize r).
    { destruct o as [data n|x|n| | | | | | | | ]; cbn [ring_step] in E1;
        try (injection E1 as <- <-; split; [exact Hwf|reflexivity]).
      - unfold ring_push_many in E1. rewrite clip in E1.
        set (k := Nat.min n (ring_space r)) in *.
        destruct (Nat.le_gt_cases k (length data)) as [Hk|Hk].
        + destruct (ring_push_many_wf r data n Hwf Hk) as (r3 & E3 & Hw3 & Hs3 & _).
          unfold ring_push_many in E3. rewrite clip in E3. fold k in E3.
          destruct (ring_store_loop k data r) as [r4|u]; [|discriminate]. cbn [bind] in *.
          injection E3 as <-. injection E1 as <- <-. auto.
        + exfalso. clearbody k.
          assert (HU : exists u, ring_store_loop k data r = UB u).
          { clear -Hk. revert data r Hk. induction k as [|k IH]; intros data r Hk; [lia|].
            destruct data as [|x data]; cbn [ring_store_loop]; [eauto|].
            destruct (ring_store r x); cbn [bind]; [|eauto]. apply IH. cbn in Hk. lia. }
          destruct HU as [u HU]. rewrite HU in E1. discriminate.
      - destruct (ring_push r x) as [r3|u] eqn:E3; [|discriminate]. injection E1 as <- <-.
        split; [exact (ring_push_wf _ _ _ Hwf E3)|].
        unfold ring_push, ring_store in E3. destruct (wr _ _ _); [|discriminate].
        injection E3 as <-. reflexivity.
      - destruct (ring_pull_many_wf r n Hwf) as (r3 & E3 & Hw3 & Hs3 & _).
        rewrite E3 in E1. injection E1 as <- <-. auto.
      - destruct (ring_pull r) as [[x r3]|u] eqn:E3; [|discriminate]. injection E1 as <- <-.
        split; [exact (ring_pull_wf _ _ _ Hwf E3)|].
        unfold ring_pull, ring_fetch in E3. destruct (rd _ _); [|discriminate].
        injection E3 as <- <-. reflexivity.
      - destruct (ring_read r); [|discriminate]. injection E1 as <- <-. auto.
      - injection E1 as <- <-. destruct (ring_flush_ok r Hwf) as [[Hw _] _]. auto. }
    destruct H1 as [Hw1 Hs1]. destruct (IH r1 r2 outs2 Hw1 E2). split; [assumption|congruence].
Qed.

(** *** Overrun and underrun *)

Lemma ring_push_full : forall r x y q, ring_ok r -> avail r = rsize r -> contents r = y :: q ->
  exists r', ring_push r x = Ok r' /\ ring_wf r' /\ contents r' = x :: q /\ avail r' = rsize r'.
Proof.
  intros r x y q [Hwf Hw] Hfull Hc.
  assert (Hs : 0 < rsize r).
  { rewrite <- Hfull, <- contents_length, Hc by exact Hwf. cbn. lia. }
  pose proof (ring_push_spec r x Hwf Hs) as E. pose proof (ring_push_wf _ _ _ Hwf E) as Hwf'.
  eexists. split; [exact E|]. split; [exact Hwf'|]. rc.
  assert (Hwf0 := Hwf). destruct Hwf0 as (Hl & Ha & H0 & Hp). destruct (Hp Hs) as [Hr Hwl].
  specialize (Hw Hs). split; [|destruct (Nat.ltb_spec (avail r) (rsize r)); lia].
  assert (Hwr : whead r = rhead r).
  { rewrite Hw, Hfull. unfold idx. destruct (Nat.ltb_spec (rhead r + rsize r) (rsize r)); lia. }
  apply list_ext_nth. intro i. rewrite contents_nth by exact Hwf'. rc.
  pose proof (contents_nth r i Hwf) as Hn. rewrite Hc in Hn.
  destruct (Nat.ltb_spec (avail r) (rsize r)) as [|_]; [lia|].
  rewrite nth_error_list_set, Hl. destruct (Nat.ltb_spec (whead r) (rsize r)) as [_|]; [|lia].
  rewrite andb_true_r. destruct i as [|i].
  - destruct (Nat.ltb_spec 0 (avail r)); [|lia]. rewrite Hwr. unfold idx. rewrite Nat.add_0_r.
    destruct (Nat.ltb_spec (rhead r) (rsize r)); [|lia]. now rewrite Nat.eqb_refl.
  - cbn [nth_error] in *. rewrite Hn.
    destruct (Nat.ltb_spec (S i) (avail r)); [|reflexivity].
    destruct (Nat.eqb_spec (idx (rsize r) (rhead r) (S i)) (whead r)) as [Ei|_]; [|reflexivity].
    exfalso. rewrite Hwr in Ei. unfold idx in Ei. destruct (Nat.ltb_spec (rhead r + S i) (rsize r)); lia.
Qed.

(** *** Final forms used in RingProps.v *)

Lemma fifo_lemma : forall (buf : list A) ops q outs,
  q_run (length buf) [] ops = Some (q, outs) ->
  exists r, ring_run (ring_new buf) ops = Ok (r, outs).
Proof.
  intros buf ops q outs H.
  destruct (ring_run_refines ops (ring_new buf) q outs (ring_new_ok buf) H) as (r & E & _). eauto.
Qed.

Lemma bulk_push_lemma : forall (buf : list A) h r outs data n,
  ring_run (ring_new buf) h = Ok (r, outs) -> n <= length data ->
  exists k s r', ring_run r [SpaceAvailable] = Ok (r, [OCount s]) /\ k = Nat.min n s /\
    ring_run r [PushMany data n] = Ok (r', [OCount k]) /\
    ring_run r (map PushOne (firstn k data)) = Ok (r', repeat ONone k).
Proof.
  intros buf h r outs data n H Hd.
  destruct (ring_history_wf _ _ _ _ (proj1 (ring_new_ok buf)) H) as [Hwf _].
  destruct (ring_push_many_iter r data n Hwf Hd) as (r' & E1 & E2).
  exists (Nat.min n (ring_space r)), (ring_space r), r'.
  split; [reflexivity|]. split; [reflexivity|]. split; [|exact E2].
  cbn [ring_run ring_step]. rewrite E1. reflexivity.
Qed.

Lemma bulk_pull_lemma : forall (buf : list A) h r outs n,
  ring_run (ring_new buf) h = Ok (r, outs) ->
  exists k a l r', ring_run r [BytesAvailable] = Ok (r, [OCount a]) /\ k = Nat.min n a /\
    ring_run r [PullMany n] = Ok (r', [OData l k]) /\
    ring_run r (repeat PullOne k) = Ok (r', map OElem l).
Proof.
  intros buf h r outs n H.
  destruct (ring_history_wf _ _ _ _ (proj1 (ring_new_ok buf)) H) as [Hwf _].
  destruct (ring_pull_many_iter r n Hwf) as (l & r' & E1 & E2).
  exists (Nat.min n (avail r)), (avail r), l, r'.
  split; [reflexivity|]. split; [reflexivity|]. split; [|exact E2].
  cbn [ring_run ring_step]. rewrite E1. reflexivity.
Qed.

Lemma safety_lemma : forall (buf : list A) ops, 1 <= length buf -> Forall supplied ops ->
  exists r outs b s,
    ring_run (ring_new buf) (ops ++ [BytesAvailable; SpaceAvailable; SizeOf; IsEmpty; IsFull]) =
    Ok (r, outs ++ [OCount b; OCount s; OCount (length buf); OBool (b =? 0); OBool (s =? 0)]) /\
    b + s = length buf.
Proof.
  intros buf ops Hb Hsup.
  destruct (ring_run_wf ops (ring_new buf) (proj1 (ring_new_ok buf)) Hb Hsup) as (r & outs & E & Hwf & Hs).
  exists r, outs, (avail r), (ring_space r). rewrite ring_run_app, E. cbn [bind ring_run ring_step].
  destruct Hwf as (Hl & Ha & _). change (rsize (ring_new buf)) with (length buf) in Hs.
  split; [|unfold ring_space; lia].
  unfold ring_is_empty, ring_is_full, ring_space. rewrite Hs.
  replace (avail r =? length buf) with (length buf - avail r =? 0); [reflexivity|].
  destruct (Nat.eqb_spec (avail r) (length buf)); destruct (Nat.eqb_spec (length buf - avail r) 0); lia.
Qed.

Lemma pulls_contents : forall r, ring_wf r ->
  exists r', ring_run r (repeat PullOne (avail r)) = Ok (r', map OElem (contents r)).
Proof.
  intros r Hwf. destruct (ring_pull_many_iter r (avail r) Hwf) as (l & r' & E1 & E2).
  destruct (ring_pull_many_wf r (avail r) Hwf) as (r2 & E3 & _). rewrite E1 in E3.
  rewrite Nat.min_id in E2. injection E3 as -> _. exists r'. rewrite E2. do 3 f_equal.
  apply firstn_all2. rewrite contents_length by exact Hwf. lia.
Qed.

Lemma overrun_lemma : forall (buf : list A) h y q outs x,
  q_run (length buf) [] h = Some (y :: q, outs) -> length (y :: q) = length buf ->
  exists r, ring_run (ring_new buf) (h ++ PushOne x :: repeat PullOne (length buf)) =
            Ok (r, outs ++ ONone :: map OElem (x :: q)).
Proof.
  intros buf h y q outs x H Hfull.
  destruct (ring_run_refines h (ring_new buf) _ outs (ring_new_ok buf) H) as (r & E & Hok & Hc & Hs).
  assert (Hav : avail r = rsize r).
  { rewrite <- contents_length, Hc, Hfull, Hs by apply Hok. reflexivity. }
  destruct (ring_push_full r x y q Hok Hav Hc) as (r2 & E2 & Hwf2 & Hc2 & Ha2).
  destruct (pulls_contents r2 Hwf2) as (r3 & E3).
  rewrite ring_run_app, E. cbn [bind ring_run ring_step]. rewrite E2. cbn [bind].
  replace (length buf) with (avail r2).
  - rewrite E3. cbn [bind]. rewrite Hc2. eauto.
  - rewrite <- contents_length, Hc2 by exact Hwf2. exact Hfull.
Qed.

Lemma flush_recovers_lemma : forall (buf : list A) h ops q outs1 outs2 r1,
  ring_run (ring_new buf) h = Ok (r1, outs1) ->
  q_run (length buf) [] ops = Some (q, outs2) ->
  exists r2, ring_run (ring_new buf) (h ++ Flush :: ops) = Ok (r2, outs1 ++ ONone :: outs2).
Proof.
  intros buf h ops q outs1 outs2 r1 H Hq.
  destruct (ring_history_wf _ _ _ _ (proj1 (ring_new_ok buf)) H) as [Hwf Hs].
  destruct (ring_flush_ok r1 Hwf) as [Hok Hc].
  change (rsize (ring_new buf)) with (length buf) in Hs.
  rewrite <- Hs in Hq. change (rsize r1) with (rsize (ring_flush r1)) in Hq. rewrite <- Hc in Hq.
  destruct (ring_run_refines ops _ q outs2 Hok Hq) as (r2 & E & _).
  rewrite ring_run_app, H. cbn [bind ring_run ring_step]. rewrite E. cbn. eauto.
Qed.

Lemma underrun_lemma : forall (a b : A) rest x,
  exists r, ring_run (ring_new (a :: b :: rest)) [PullOne; PushOne x; PullOne] =
            Ok (r, [OElem a; ONone; OElem b]).
Proof. intros. eexists. reflexivity. Qed.

End Ring.
