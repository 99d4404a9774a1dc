(** Properties C27-C30: cicada/commdevices/blockingcommdev.cpp, for every
    device, clock and yield function. *)
From Coq Require Import Ascii String ZArith List Bool Lia.
From Verif Require Import Base Blocking BlockingProofs.
Import ListNotations.
Open Scope list_scope.
Open Scope Z_scope.

(** ** C27 *)

(** [str x]: what the device has still to deliver in state x.  The bytes
    returned are the next ones of that stream, never more than asked for (or
    than fit), and fewer only after the timeout.  ([UB Diverges] means only
    that [fuel] iterations did not suffice; see C29.) *)
Theorem C27_read_is_stream : forall X (c : comm X),
  (forall x n, 0 <= n -> Z.of_nat (length (fst (c_read c x n))) <= n) ->
  forall str : X -> bytes,
  (forall x n, exists more, fst (c_read c x n) ++ str (snd (c_read c x n)) = str x ++ more) ->
  (forall x, exists more, str (c_yield c x) = str x ++ more) ->
  (forall x n, c_now c x <= c_now c (snd (c_read c x n))) ->
  (forall x, c_now c x <= c_now c (c_yield c x)) ->
  forall fuel cap len timeout x, 0 <= timeout <= 2147483647 -> 0 <= len <= 2147483647 -> len <= cap ->
  b_read fuel c cap len timeout x = UB Diverges \/
  exists cs x' arrived, b_read fuel c cap len timeout x = Ok (cs, x') /\ Z.of_nat (length cs) <= len /\
    cs ++ str x' = str x ++ arrived /\ (Z.of_nat (length cs) < len -> timeout < c_now c x' - c_now c x).
Proof. exact (fun X c => b_read_lemma c). Qed.
Print Assumptions C27_read_is_stream.

(** Example device: a clock, bytes available now, bytes arriving one per yield,
    free space of the send buffer and bytes in it; every read takes 1 ms. *)
Record demo : Type := mkDemo { clk : Z; here : bytes; coming : bytes; room : Z; unsent : bytes }.
Definition demo_dev : comm demo := mkComm demo clk
  (fun x n => let k := if Z.of_nat (length (here x)) <=? n then length (here x) else Z.to_nat n in
              (firstn k (here x), mkDemo (clk x + 1) (skipn k (here x)) (coming x) (room x) (unsent x)))
  (fun x => (room x, x))
  (fun x d => if Z.of_nat (length d) <=? room x then (Z.of_nat (length d), mkDemo (clk x) (here x) (coming x) (room x - Z.of_nat (length d)) (unsent x ++ d))
              else (0, x))
  (fun x => (match unsent x with [] => true | _ => false end, x))
  (fun x => mkDemo (clk x + 1) (here x ++ firstn 1 (coming x)) (skipn 1 (coming x)) (room x) (skipn 1 (unsent x))).

Example demo_dev_legal :
  (forall x n, 0 <= n -> Z.of_nat (length (fst (c_read demo_dev x n))) <= n) /\
  (forall x n, fst (c_read demo_dev x n) ++ here (snd (c_read demo_dev x n)) ++ coming (snd (c_read demo_dev x n)) = (here x ++ coming x) ++ []) /\
  (forall x, here (c_yield demo_dev x) ++ coming (c_yield demo_dev x) = (here x ++ coming x) ++ []) /\
  (forall x d, Z.of_nat (length d) <= fst (c_space demo_dev x) -> fst (c_write demo_dev (snd (c_space demo_dev x)) d) = Z.of_nat (length d)).
Proof.
  split; [|split; [|split]].
  - intros x n H. cbn. rewrite firstn_length. destruct (Z.leb_spec (Z.of_nat (length (here x))) n); lia.
  - intros x n. cbn [c_read demo_dev fst snd here coming]. cbv zeta. now rewrite app_nil_r, app_assoc, firstn_skipn.
  - intros x. cbn [c_yield demo_dev here coming]. rewrite app_nil_r, <- app_assoc, firstn_skipn. reflexivity.
  - intros x d H. cbn in *. destruct (Z.leb_spec (Z.of_nat (length d)) (room x)); [reflexivity|lia].
Qed.

Example C27_example : exists x', b_read 100 demo_dev 6 6 20 (mkDemo 4294967290 (bs "ab") (bs "cdefg") 0 []) = Ok (bs "abcdef", x') /\ here x' = bs "g".
Proof. compute_all. Qed.

Example C27_timeout_example : exists x', b_read 100 demo_dev 6 6 20 (mkDemo 4294967290 (bs "ab") (bs "c") 0 []) = Ok (bs "abc", x') /\ clk x' = 4294967290 + 22.
Proof. compute_all. Qed.

(** A negative length is not refused: it reaches the device as a huge size and
    the caller's array overflows. *)
Theorem C27_negative_length_refuted : exists x, b_read 10 demo_dev 1 (-1) 20 x = UB OutOfBounds.
Proof. exists (mkDemo 0 (bs "abc") [] 0 []). vm_compute. reflexivity. Qed.
Print Assumptions C27_negative_length_refuted.

(** ** C28 *)

(** All or nothing: the device is given the whole buffer once or not at all.
    The whole length is returned only once the device has processed
    everything; otherwise 0, and only after the timeout. *)
Theorem C28_write_all_or_nothing : forall X (c : comm X),
  (forall x, c_now c x <= c_now c (snd (c_space c x))) ->
  (forall x d, c_now c x <= c_now c (snd (c_write c x d))) ->
  (forall x, c_now c x <= c_now c (snd (c_processed c x))) ->
  (forall x, c_now c x <= c_now c (c_yield c x)) ->
  (forall x d, Z.of_nat (length d) <= fst (c_space c x) -> fst (c_write c (snd (c_space c x)) d) = Z.of_nat (length d)) ->
  forall fuel data len timeout x r x', 0 <= timeout <= 2147483647 ->
  0 <= len <= Z.of_nat (length data) -> len <= 2147483647 ->
  b_write fuel c data len timeout x = Ok (r, x') ->
  (w_calls r = [] \/ w_calls r = [(firstn (Z.to_nat len) data, len)]) /\
  ((w_ret r = len /\ w_calls r <> [] /\ exists x0, c_processed c x0 = (true, x')) \/
   (w_ret r = 0 /\ timeout < c_now c x' - c_now c x)).
Proof. exact (fun X c => b_write_lemma c). Qed.
Print Assumptions C28_write_all_or_nothing.

Example C28_example :
  (exists x', b_write 100 demo_dev (bs "hello") 5 20 (mkDemo 0 [] [] 8 []) = Ok (mkWR 5 [(bs "hello", 5)], x')) /\
  (exists x', b_write 100 demo_dev (bs "hello") 5 20 (mkDemo 0 [] [] 4 []) = Ok (mkWR 0 [], x')).
Proof. split; compute_all. Qed.

(** ** C29 *)

(** If every yield advances the clock by 1..B ms and no device call takes more
    than B ms, read returns, at most 2 B ms after the timeout. *)
Theorem C29_read_returns : forall X (c : comm X) B, 0 <= B ->
  (forall x n, 0 <= n -> Z.of_nat (length (fst (c_read c x n))) <= n) ->
  (forall x n, c_now c x <= c_now c (snd (c_read c x n)) <= c_now c x + B) ->
  (forall x, c_now c x + 1 <= c_now c (c_yield c x) <= c_now c x + B) ->
  forall cap len timeout x, 0 <= timeout <= 2147483647 -> timeout + 2 * B < 4294967296 ->
  0 <= len <= 2147483647 -> len <= cap ->
  exists fuel0, forall fuel, (fuel0 <= fuel)%nat ->
  exists cs x', b_read fuel c cap len timeout x = Ok (cs, x') /\ c_now c x' - c_now c x <= timeout + 2 * B.
Proof. exact (fun X c => b_read_term c). Qed.
Print Assumptions C29_read_returns.

Theorem C29_write_returns : forall X (c : comm X) B, 0 <= B ->
  (forall x, c_now c x <= c_now c (snd (c_space c x)) <= c_now c x + B) ->
  (forall x d, c_now c x <= c_now c (snd (c_write c x d)) <= c_now c x + B) ->
  (forall x, c_now c x <= c_now c (snd (c_processed c x)) <= c_now c x + B) ->
  (forall x, c_now c x + 1 <= c_now c (c_yield c x) <= c_now c x + B) ->
  forall data len timeout x, 0 <= timeout <= 2147483647 -> timeout + 4 * B < 4294967296 ->
  0 <= len <= Z.of_nat (length data) -> len <= 2147483647 ->
  exists fuel0, forall fuel, (fuel0 <= fuel)%nat ->
  exists r x', b_write fuel c data len timeout x = Ok (r, x') /\ c_now c x' - c_now c x <= timeout + 4 * B.
Proof. exact (fun X c => b_write_term c). Qed.
Print Assumptions C29_write_returns.

(** With a clock that stands still, like the one of
    platform/noplatform/tick_none.cpp:26-29, a read never returns if no data
    comes, whatever its timeout. *)
Theorem C29_stopped_clock_refuted : forall X (c : comm X) cap len timeout x fuel,
  (forall x, c_now c x = 0) -> (forall x n, fst (c_read c x n) = []) -> 0 <= timeout <= 2147483647 -> 0 < len <= 2147483647 -> len <= cap ->
  b_read fuel c cap len timeout x = UB Diverges.
Proof. exact b_read_stuck. Qed.
Print Assumptions C29_stopped_clock_refuted.

(** ** C30 is false *)

(** The write reports failure (0), but the device has accepted everything and
    will send it: a retry sends it twice. *)
Theorem C30_failed_write_sent_nothing_refuted : exists x x',
  b_write 100 demo_dev (bs "hello") 5 2 x = Ok (mkWR 0 [(bs "hello", 5)], x').
Proof. exists (mkDemo 0 [] [] 8 []). compute_all. Qed.
Print Assumptions C30_failed_write_sent_nothing_refuted.
