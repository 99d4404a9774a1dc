(** Proofs about Blocking.v. *)
From Coq Require Import Ascii ZArith List Bool Lia.
From Verif Require Import Base Blocking.
Import ListNotations.
Open Scope Z_scope.
Ltac Zify.zify_post_hook ::= Z.div_mod_to_equations.

Lemma timed_out_real : forall X (c : comm X) t0 timeout x, 0 <= timeout <= 2147483647 -> t0 <= c_now c x ->
  timed_out c (u32 t0) timeout x = true -> timeout < c_now c x - t0.
Proof.
  intros X c t0 timeout x Ht Hm H. unfold timed_out, tick in H.
  assert (Hu : u32 (u32 (c_now c x) - u32 t0) <= c_now c x - t0).
  { unfold u32. rewrite <- Zminus_mod. apply Z.mod_le; lia. }
  assert (u32 timeout = timeout) by (unfold u32; apply Z.mod_small; lia). lia.
Qed.

Section B.
Context {X : Type} (c : comm X).
(** The device honours ICommDevice::read: at most [n] bytes. *)
Hypothesis Hread : forall x n, 0 <= n -> Z.of_nat (length (fst (c_read c x n))) <= n.
(** The device is a stream: what read() delivers comes off the front of what is
    still to be read; in the meantime more may arrive at the end. *)
Context (str : X -> bytes).
Hypothesis Hstr : forall x n, exists more, fst (c_read c x n) ++ str (snd (c_read c x n)) = str x ++ more.
Hypothesis Hyield : forall x, exists more, str (c_yield c x) = str x ++ more.
(** Time does not run backwards. *)
Hypothesis Hmono_r : forall x n, c_now c x <= c_now c (snd (c_read c x n)).
Hypothesis Hmono_y : forall x, c_now c x <= c_now c (c_yield c x).

Lemma b_read_loop_ok : forall fuel cap t0 timeout len got x r, 0 <= timeout <= 2147483647 ->
  0 <= len <= 2147483647 -> Z.of_nat (length got) + len <= cap -> t0 <= c_now c x ->
  b_read_loop fuel c cap (u32 t0) timeout len got x = r ->
  r = UB Diverges \/ exists cs x' more, r = Ok (got ++ cs, x') /\ Z.of_nat (length cs) <= len /\
    cs ++ str x' = str x ++ more /\ (Z.of_nat (length cs) < len -> timeout < c_now c x' - t0).
Proof.
  induction fuel as [|fuel IH]; intros cap t0 timeout len got x r Ht Hl Hcap Hm <-; cbn [b_read_loop].
  - destruct (Z.eqb_spec len 0).
    + right. exists [], x, []. rewrite !app_nil_r. cbn. split; [reflexivity|]. split; [lia|]. split; [reflexivity|lia].
    + destruct (timed_out c (u32 t0) timeout x) eqn:E; [|auto].
      right. exists [], x, []. rewrite !app_nil_r. split; [reflexivity|]. split; [cbn; lia|]. split; [reflexivity|].
      intros _. apply timed_out_real; auto.
  - destruct (Z.eqb_spec len 0).
    + right. exists [], x, []. rewrite !app_nil_r. cbn. split; [reflexivity|]. split; [lia|]. split; [reflexivity|lia].
    + destruct (timed_out c (u32 t0) timeout x) eqn:E.
      { right. exists [], x, []. rewrite !app_nil_r. split; [reflexivity|]. split; [cbn; lia|]. split; [reflexivity|].
        intros _. apply timed_out_real; auto. }
      assert (Hu : u64 len = len) by (unfold u64; apply Z.mod_small; lia). rewrite Hu.
      pose proof (Hread x len ltac:(lia)) as Hr. pose proof (Hstr x len) as Hs. pose proof (Hmono_r x len) as Hmr.
      destruct (c_read c x len) as [cs x1]. cbn [fst snd] in *.
      destruct (Z.ltb_spec cap (Z.of_nat (length got + length cs))); [lia|].
      assert (Hi : i32 (Z.of_nat (length cs)) = Z.of_nat (length cs)) by (unfold i32; lia). cbv zeta. rewrite Hi.
      assert (int_in (len - Z.of_nat (length cs)) = true) as -> by (unfold int_in; lia).
      pose proof (Hmono_y x1).
      destruct (IH cap t0 timeout (len - Z.of_nat (length cs)) (got ++ cs) (c_yield c x1) _ Ht ltac:(lia)
                  ltac:(rewrite app_length; lia) ltac:(lia) eq_refl) as [->|(cs2 & x' & more & -> & L2 & S2 & T2)]; [auto|].
      right. destruct Hs as [m1 Hs]. destruct (Hyield x1) as [m2 Hy].
      exists (cs ++ cs2), x', (m1 ++ m2 ++ more). split; [now rewrite app_assoc|]. rewrite app_length. split; [lia|].
      split; [|intros; apply T2; lia].
      rewrite <- app_assoc, S2, Hy, <- !app_assoc, app_assoc, Hs, <- !app_assoc. reflexivity.
Qed.

Lemma b_read_lemma : forall fuel cap len timeout x, 0 <= timeout <= 2147483647 ->
  0 <= len <= 2147483647 -> len <= cap ->
  b_read fuel c cap len timeout x = UB Diverges \/
  exists cs x' arrived, b_read fuel c cap len timeout x = Ok (cs, x') /\ Z.of_nat (length cs) <= len /\
    cs ++ str x' = str x ++ arrived /\ (Z.of_nat (length cs) < len -> timeout < c_now c x' - c_now c x).
Proof.
  intros fuel cap len timeout x Ht Hl Hc.
  destruct (b_read_loop_ok fuel cap (c_now c x) timeout len [] x _ Ht Hl ltac:(cbn; lia) ltac:(lia) eq_refl)
    as [H|(cs & x' & more & H & L & S & T)]; [left; exact H|right].
  exists cs, x', more. auto.
Qed.
End B.

Lemma timed_out_iff : forall X (c : comm X) t0 timeout x, 0 <= timeout <= 2147483647 ->
  0 <= c_now c x - t0 < 4294967296 ->
  timed_out c (u32 t0) timeout x = (timeout <? c_now c x - t0).
Proof.
  intros X c t0 timeout x Ht Hx. unfold timed_out, tick.
  assert (Hu : u32 (u32 (c_now c x) - u32 t0) = c_now c x - t0).
  { unfold u32. rewrite <- Zminus_mod. apply Z.mod_small. lia. }
  assert (u32 timeout = timeout) by (unfold u32; apply Z.mod_small; lia). rewrite Hu, H. reflexivity.
Qed.

Section Term.
Context {X : Type} (c : comm X).
(** Every yield advances the clock, by at most [B]; the device calls take at
    most [B] and do not turn it back. *)
Context (B : Z).
Hypothesis HB : 0 <= B.
Hypothesis Hread : forall x n, 0 <= n -> Z.of_nat (length (fst (c_read c x n))) <= n.
Hypothesis Hr : forall x n, c_now c x <= c_now c (snd (c_read c x n)) <= c_now c x + B.
Hypothesis Hy : forall x, c_now c x + 1 <= c_now c (c_yield c x) <= c_now c x + B.

Lemma b_read_loop_term : forall fuel cap t0 timeout len got x, 0 <= timeout <= 2147483647 -> timeout + 2 * B < 4294967296 ->
  0 <= len <= 2147483647 -> Z.of_nat (length got) + len <= cap ->
  0 <= c_now c x - t0 <= timeout + 2 * B ->
  timeout - (c_now c x - t0) < Z.of_nat fuel ->
  exists cs x', b_read_loop fuel c cap (u32 t0) timeout len got x = Ok (cs, x') /\ c_now c x' - t0 <= timeout + 2 * B.
Proof.
  induction fuel as [|fuel IH]; intros cap t0 timeout len got x Ht HBt Hl Hcap Hx Hf; cbn [b_read_loop];
    rewrite (timed_out_iff _ c t0) by lia.
  - destruct (len =? 0); [do 2 eexists; split; [reflexivity|lia]|]. destruct (Z.ltb_spec timeout (c_now c x - t0)); [|lia]. do 2 eexists. split; [reflexivity|lia].
  - destruct (Z.eqb_spec len 0); [do 2 eexists; split; [reflexivity|lia]|].
    destruct (Z.ltb_spec timeout (c_now c x - t0)); [do 2 eexists; split; [reflexivity|lia]|].
    assert (Hu : u64 len = len) by (unfold u64; apply Z.mod_small; lia). rewrite Hu.
    pose proof (Hread x len ltac:(lia)) as Hrd. pose proof (Hr x len) as Hmr.
    destruct (c_read c x len) as [cs x1]. cbn [fst snd] in *.
    destruct (Z.ltb_spec cap (Z.of_nat (length got + length cs))); [lia|].
    assert (Hi : i32 (Z.of_nat (length cs)) = Z.of_nat (length cs)) by (unfold i32; lia). cbv zeta. rewrite Hi.
    assert (int_in (len - Z.of_nat (length cs)) = true) as -> by (unfold int_in; lia).
    pose proof (Hy x1). apply IH; try lia. rewrite app_length; lia.
Qed.

Lemma b_read_term : forall cap len timeout x, 0 <= timeout <= 2147483647 -> timeout + 2 * B < 4294967296 ->
  0 <= len <= 2147483647 -> len <= cap ->
  exists fuel0, forall fuel, (fuel0 <= fuel)%nat ->
  exists cs x', b_read fuel c cap len timeout x = Ok (cs, x') /\ c_now c x' - c_now c x <= timeout + 2 * B.
Proof.
  intros cap len timeout x Ht HBt Hl Hc. exists (S (Z.to_nat timeout)). intros fuel Hf.
  unfold b_read, tick. apply b_read_loop_term; try lia. cbn; lia.
Qed.

End Term.

Section TermW.
Context {X : Type} (c : comm X).
Context (B : Z).
Hypothesis HB : 0 <= B.
Hypothesis Hs : forall x, c_now c x <= c_now c (snd (c_space c x)) <= c_now c x + B.
Hypothesis Hw : forall x d, c_now c x <= c_now c (snd (c_write c x d)) <= c_now c x + B.
Hypothesis Hp : forall x, c_now c x <= c_now c (snd (c_processed c x)) <= c_now c x + B.
Hypothesis Hy : forall x, c_now c x + 1 <= c_now c (c_yield c x) <= c_now c x + B.

Lemma b_wait_space_term : forall fuel t0 timeout len x, 0 <= timeout <= 2147483647 -> timeout + 2 * B < 4294967296 ->
  0 <= c_now c x - t0 -> c_now c x - t0 + B <= timeout + 2 * B ->
  timeout - (c_now c x - t0) < Z.of_nat fuel ->
  exists b x', b_wait_space fuel c (u32 t0) timeout len x = Ok (b, x') /\ 0 <= c_now c x' - t0 <= timeout + 2 * B.
Proof.
  induction fuel as [|fuel IH]; intros t0 timeout len x Ht HBt Hx Hx2 Hf; cbn [b_wait_space];
    pose proof (Hs x) as Hsx; destruct (c_space c x) as [sp x1]; cbn [snd] in Hsx;
    rewrite (timed_out_iff _ c t0) by lia;
    (destruct (sp <? u64 len); [|do 2 eexists; split; [reflexivity|lia]]);
    (destruct (Z.ltb_spec timeout (c_now c x1 - t0)); [do 2 eexists; split; [reflexivity|lia]|]).
  - lia.
  - pose proof (Hy x1). apply IH; lia.
Qed.

Lemma b_wait_processed_term : forall fuel t0 timeout x, 0 <= timeout <= 2147483647 -> timeout + 4 * B < 4294967296 ->
  0 <= c_now c x - t0 <= timeout + 3 * B ->
  timeout - (c_now c x - t0) < Z.of_nat fuel ->
  exists b x', b_wait_processed fuel c (u32 t0) timeout x = Ok (b, x') /\ c_now c x' - t0 <= timeout + 4 * B.
Proof.
  induction fuel as [|fuel IH]; intros t0 timeout x Ht HBt Hx Hf; cbn [b_wait_processed];
    pose proof (Hp x) as Hpx; destruct (c_processed c x) as [p x1]; cbn [snd] in Hpx;
    rewrite (timed_out_iff _ c t0) by lia;
    (destruct p; [do 2 eexists; split; [reflexivity|lia]|]);
    (destruct (Z.ltb_spec timeout (c_now c x1 - t0)); [do 2 eexists; split; [reflexivity|lia]|]).
  - lia.
  - pose proof (Hy x1). apply IH; lia.
Qed.

Lemma b_write_term : forall data len timeout x, 0 <= timeout <= 2147483647 -> timeout + 4 * B < 4294967296 ->
  0 <= len <= Z.of_nat (length data) -> len <= 2147483647 ->
  exists fuel0, forall fuel, (fuel0 <= fuel)%nat ->
  exists r x', b_write fuel c data len timeout x = Ok (r, x') /\ c_now c x' - c_now c x <= timeout + 4 * B.
Proof.
  intros data len timeout x Ht HBt Hl Hl2. exists (S (Z.to_nat timeout)). intros fuel Hf.
  unfold b_write. unfold tick.
  destruct (b_wait_space_term fuel (c_now c x) timeout len x) as (b & x1 & -> & H1); try lia.
  cbn [bind]. destruct b; cbn [negb]; [|do 2 eexists; split; [reflexivity|lia]].
  assert (Hu : u64 len = len) by (unfold u64; apply Z.mod_small; lia). rewrite Hu.
  destruct (Z.ltb_spec (Z.of_nat (length data)) len); [lia|].
  pose proof (Hw x1 (firstn (Z.to_nat len) data)) as Hwx. destruct (c_write c x1 (firstn (Z.to_nat len) data)) as [r x2]. cbn [snd] in Hwx.
  destruct (b_wait_processed_term fuel (c_now c x) timeout x2) as (d & x3 & -> & H3); try lia.
  cbn [bind]. do 2 eexists. split; [reflexivity|lia].
Qed.
End TermW.

Section Wr.
Context {X : Type} (c : comm X).
Hypothesis Hs : forall x, c_now c x <= c_now c (snd (c_space c x)).
Hypothesis Hw : forall x d, c_now c x <= c_now c (snd (c_write c x d)).
Hypothesis Hp : forall x, c_now c x <= c_now c (snd (c_processed c x)).
Hypothesis Hy : forall x, c_now c x <= c_now c (c_yield c x).
(** The device keeps its word: after reporting enough space it takes everything. *)
Hypothesis Htake : forall x d, Z.of_nat (length d) <= fst (c_space c x) -> fst (c_write c (snd (c_space c x)) d) = Z.of_nat (length d).

Lemma b_wait_space_ok : forall fuel t0 timeout len x b x', 0 <= timeout <= 2147483647 -> t0 <= c_now c x ->
  b_wait_space fuel c (u32 t0) timeout len x = Ok (b, x') ->
  t0 <= c_now c x' /\
  (b = true -> exists x0, x' = snd (c_space c x0) /\ u64 len <= fst (c_space c x0)) /\ (b = false -> timeout < c_now c x' - t0).
Proof.
  induction fuel as [|fuel IH]; intros t0 timeout len x b x' Ht Hm H; cbn [b_wait_space] in H;
    pose proof (Hs x) as Hsx; destruct (c_space c x) as [sp x1] eqn:E; cbn [snd] in Hsx;
    (destruct (Z.ltb_spec sp (u64 len));
      [|injection H as <- <-; split; [lia|split; [|discriminate]]; intros _; exists x; rewrite E; auto]);
    (destruct (timed_out c (u32 t0) timeout x1) eqn:Et;
      [injection H as <- <-; split; [lia|split; [discriminate|]]; intros _; apply timed_out_real; auto; lia|]); try discriminate.
  pose proof (Hy x1). eapply IH; [exact Ht| |exact H]; lia.
Qed.

Lemma b_wait_processed_ok : forall fuel t0 timeout x b x', 0 <= timeout <= 2147483647 -> t0 <= c_now c x ->
  b_wait_processed fuel c (u32 t0) timeout x = Ok (b, x') ->
  (b = true -> exists x0, c_processed c x0 = (true, x')) /\ (b = false -> timeout < c_now c x' - t0).
Proof.
  induction fuel as [|fuel IH]; intros t0 timeout x b x' Ht Hm H; cbn [b_wait_processed] in H;
    pose proof (Hp x) as Hpx; destruct (c_processed c x) as [p x1] eqn:E; cbn [snd] in Hpx;
    (destruct p; [injection H as <- <-; split; [eauto|discriminate]|]);
    (destruct (timed_out c (u32 t0) timeout x1) eqn:Et;
      [injection H as <- <-; split; [discriminate|]; intros _; apply timed_out_real; auto; lia|]); try discriminate.
  pose proof (Hy x1). eapply IH; [exact Ht| |exact H]; lia.
Qed.

Lemma b_write_lemma : forall fuel data len timeout x r x', 0 <= timeout <= 2147483647 ->
  0 <= len <= Z.of_nat (length data) -> len <= 2147483647 ->
  b_write fuel c data len timeout x = Ok (r, x') ->
  (w_calls r = [] \/ w_calls r = [(firstn (Z.to_nat len) data, len)]) /\
  ((w_ret r = len /\ w_calls r <> [] /\ exists x0, c_processed c x0 = (true, x')) \/
   (w_ret r = 0 /\ timeout < c_now c x' - c_now c x)).
Proof.
  intros fuel data len timeout x r x' Ht Hl Hl2 H. unfold b_write in H. unfold tick in H.
  destruct (b_wait_space fuel c (u32 (c_now c x)) timeout len x) as [[b x1]|] eqn:E1; [|discriminate]. cbn [bind] in H.
  destruct (b_wait_space_ok _ (c_now c x) _ _ x _ _ Ht ltac:(lia) E1) as (M1 & T1 & F1).
  assert (Hu : u64 len = len) by (unfold u64; apply Z.mod_small; lia). rewrite Hu in *.
  destruct b; cbn [negb] in H; [|injection H as <- <-; cbn [w_calls w_ret]; auto].
  destruct (Z.ltb_spec (Z.of_nat (length data)) len); [lia|].
  destruct (T1 eq_refl) as (x0 & -> & Hsp).
  assert (Hd : Z.of_nat (length (firstn (Z.to_nat len) data)) = len) by (rewrite firstn_length; lia).
  pose proof (Htake x0 (firstn (Z.to_nat len) data) ltac:(lia)) as Hk. rewrite Hd in Hk.
  pose proof (Hw (snd (c_space c x0)) (firstn (Z.to_nat len) data)) as Hwx.
  destruct (c_write c (snd (c_space c x0)) (firstn (Z.to_nat len) data)) as [k x2]. cbn [fst snd] in *. subst k.
  destruct (b_wait_processed fuel c (u32 (c_now c x)) timeout x2) as [[d x3]|] eqn:E3; [|discriminate]. cbn [bind] in H.
  injection H as <- <-. cbn [w_calls w_ret]. split; [auto|].
  destruct (b_wait_processed_ok _ (c_now c x) _ x2 _ _ Ht ltac:(lia) E3) as (T3 & F3).
  destruct d; [left|right; auto]. split; [unfold i32; lia|]. split; [discriminate|auto].
Qed.
End Wr.

(** With a clock that stands still the loops never end. *)
Lemma b_read_stuck : forall X (c : comm X) cap len timeout x fuel,
  (forall x, c_now c x = 0) -> (forall x n, fst (c_read c x n) = []) -> 0 <= timeout <= 2147483647 -> 0 < len <= 2147483647 -> len <= cap ->
  b_read fuel c cap len timeout x = UB Diverges.
Proof.
  intros X c cap len timeout x fuel Hn Hr Ht Hl Hc. unfold b_read, tick. rewrite Hn.
  assert (Ht0 : forall x, timed_out c (u32 0) timeout x = false).
  { intros y. unfold timed_out, tick. rewrite Hn. change (u32 (u32 0 - u32 0)) with 0. unfold u32. lia. }
  revert x. induction fuel as [|fuel IH]; intros x; cbn [b_read_loop]; rewrite Ht0; destruct (Z.eqb_spec len 0); try lia; [reflexivity|].
  pose proof (Hr x (u64 len)) as Hx. destruct (c_read c x (u64 len)) as [cs x1]. cbn [fst] in Hx. subst cs. cbn [length Nat.add].
  destruct (Z.ltb_spec cap (Z.of_nat 0)); [cbn in *; lia|]. cbv zeta. change (i32 (Z.of_nat 0)) with 0. rewrite Z.sub_0_r.
  assert (int_in len = true) as -> by (unfold int_in; lia). apply IH.
Qed.
