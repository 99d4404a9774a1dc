(** Properties C17-C23: cicada/task.h and cicada/scheduler.cpp. *)
From Coq Require Import ZArith List Bool Permutation Lia.
From Verif Require Import Base TaskSpec TaskMacros TaskProofs Sched SchedProofs.
Import ListNotations.
Open Scope Z_scope.

(** ** C17: round robin *)

(** Whatever the bodies do (as long as the array of tasks stays the same), the
    k-th call of runTask() looks at task k mod n. *)
Theorem C17_round_robin : forall W (body : nat -> W -> list tobj -> W * list tobj) tl w ts,
  (forall i w ts, length (snd (body i w ts)) = length ts) -> tl <> [] ->
  exists s vs, sched_run body ts (sched_new tl w) = Ok (s, vs) /\ map vtime vs = ts /\
    map who vs = map (fun k => k mod length tl)%nat (seq 0 (length ts)).
Proof. exact round_robin_lemma. Qed.
Print Assumptions C17_round_robin.

(** After any history, any n consecutive calls look at each of the n tasks
    exactly once. *)
Theorem C17_every_task_in_n_calls : forall W (body : nat -> W -> list tobj -> W * list tobj) tl w ts1 ts2 s1 s2 vs1 vs2,
  (forall i w ts, length (snd (body i w ts)) = length ts) -> tl <> [] ->
  sched_run body ts1 (sched_new tl w) = Ok (s1, vs1) -> length ts2 = length tl ->
  sched_run body ts2 s1 = Ok (s2, vs2) -> Permutation (map who vs2) (seq 0 (length tl)).
Proof. exact block_permutation_lemma. Qed.
Print Assumptions C17_every_task_in_n_calls.

(** An empty task list is not survived. *)
Theorem C17_empty_list_refuted : forall W (body : nat -> W -> list tobj -> W * list tobj) t w,
  run_task body t (sched_new [] w) = UB NullDeref.
Proof. exact empty_list_lemma. Qed.
Print Assumptions C17_empty_list_refuted.

(** Example bodies: task 0 asks for 10 ms, the others count their runs. *)
Definition demo_body (i : nat) (w : nat) (ts : list tobj) : nat * list tobj :=
  match i, ts with
  | O, o :: ts' => (w, set_delay 10 o :: ts')
  | _, _ => (S w, ts)
  end.

Example sched_example : exists s vs,
  sched_run demo_body [5; 6; 7; 8; 9; 15; 16; 17; 18] (sched_new [task_new 0; task_new 7; task_new 0] 0%nat) = Ok (s, vs) /\
  map who vs = [0; 1; 2; 0; 1; 2; 0; 1; 2]%nat /\
  map ran vs = [true; false; true; false; true; true; true; true; true].
Proof. compute_all. Qed.

Example demo_body_legal :
  (forall i w ts, length (snd (demo_body i w ts)) = length ts) /\
  (forall i w ts, map tlast (snd (demo_body i w ts)) = map tlast ts) /\
  (forall i j w ts, i <> j -> delay_of j (snd (demo_body i w ts)) = delay_of j ts) /\
  (forall w l, (0 < length l)%nat -> delay_of 0 (snd (demo_body 0 w l)) = Some (u16 10)).
Proof.
  split; [intros [|i] w [|o ts]; reflexivity|]. split; [intros [|i] w [|o ts]; reflexivity|].
  split; [|intros w [|o ts] H; [cbn in H; lia|reflexivity]].
  intros [|i] [|j] w [|o ts] H; try reflexivity. congruence.
Qed.

(** ** C18: when a task runs *)

(** Two visits of the same task, with no run of it in between: the second one
    runs it iff its delay is 0 or has passed since the first, across any wrap
    of the tick counter, if fewer than 2^32 ms passed.  [vtime] is absolute. *)
Theorem C18_due_exactly : forall W (body : nat -> W -> list tobj -> W * list tobj),
  (forall i w ts, map tlast (snd (body i w ts)) = map tlast ts) ->
  forall ts s s' pre e mid e' post, sched_run body ts s = Ok (s', pre ++ e :: mid ++ e' :: post) ->
  who e' = who e -> ran e = true -> (forall v, In v mid -> who v = who e -> ran v = false) ->
  vtime e <= vtime e' < vtime e + 4294967296 ->
  (ran e' = true <-> vdelay e' = 0 \/ vdelay e' <= vtime e' - vtime e).
Proof. exact (fun W body => due_lemma body). Qed.
Print Assumptions C18_due_exactly.

(** A task that never ran counts from tick 0. *)
Theorem C18_first_run : forall W (body : nat -> W -> list tobj -> W * list tobj),
  (forall i w ts, map tlast (snd (body i w ts)) = map tlast ts) ->
  forall ts (tl : list tobj) (w : W) s' pre e post d,
  nth_error tl (who e) = Some (task_new d) ->
  sched_run body ts (sched_new tl w) = Ok (s', pre ++ e :: post) ->
  (forall v, In v pre -> who v = who e -> ran v = false) ->
  (ran e = true <-> vdelay e = 0 \/ vdelay e <= vtime e mod 4294967296).
Proof. exact (fun W body => first_due_lemma body). Qed.
Print Assumptions C18_first_run.

(** The wrap example: runs at 2^32 - 5 and again 10 ms later. *)
Example C18_wrap_example : exists s vs,
  sched_run (fun _ (w : unit) ts => (w, ts)) [4294967291; 4294967300; 4294967301] (sched_new [task_new 10] tt) = Ok (s, vs) /\
  map ran vs = [true; false; true].
Proof. compute_all. Qed.

(** Without the bound the task may be late, but never early. *)
Theorem C18_never_early : forall W (body : nat -> W -> list tobj -> W * list tobj),
  (forall i w ts, map tlast (snd (body i w ts)) = map tlast ts) ->
  forall ts s s' pre e mid e' post, sched_run body ts s = Ok (s', pre ++ e :: mid ++ e' :: post) ->
  who e' = who e -> ran e = true -> ran e' = true -> (forall v, In v mid -> who v = who e -> ran v = false) ->
  vtime e <= vtime e' -> 0 <= vdelay e' -> vdelay e' <= vtime e' - vtime e.
Proof. exact (fun W body => never_early_lemma body). Qed.
Print Assumptions C18_never_early.

(** ** C19: requested delays *)

(** If a task's body always asks for [d], consecutive runs are at least
    d mod 65536 ms apart; so at least d for every d that fits in 16 bits. *)
Theorem C19_minimum_delay : forall W (body : nat -> W -> list tobj -> W * list tobj),
  (forall i w ts, map tlast (snd (body i w ts)) = map tlast ts) ->
  (forall i j w ts, i <> j -> delay_of j (snd (body i w ts)) = delay_of j ts) ->
  forall ts s s' pre e mid e' post d, sched_run body ts s = Ok (s', pre ++ e :: mid ++ e' :: post) ->
  who e' = who e -> ran e = true -> ran e' = true -> (forall v, In v mid -> who v = who e -> ran v = false) ->
  vtime e <= vtime e' -> (forall w l, (who e < length l)%nat -> delay_of (who e) (snd (body (who e) w l)) = Some (u16 d)) ->
  d mod 65536 <= vtime e' - vtime e.
Proof. exact (fun W body => min_delay_lemma body). Qed.
Print Assumptions C19_minimum_delay.

Example C19_example : exists s e mid e' post,
  sched_run demo_body [5; 6; 14; 20; 21] (sched_new [task_new 0; task_new 0] 0%nat) = Ok (s, [] ++ e :: mid ++ e' :: post) /\
  who e = 0%nat /\ who e' = 0%nat /\ ran e = true /\ ran e' = true /\ vtime e' - vtime e = 16 /\
  forallb (fun v => negb ((who v =? 0)%nat && ran v)) mid = true.
Proof.
  do 2 eexists. exists [mkVisit 1 true 6 0; mkVisit 0 false 14 10; mkVisit 1 true 20 0]. do 2 eexists.
  split; [vm_compute; reflexivity|]. vm_compute. auto 10.
Qed.

(** A longer delay is cut to 16 bits: a task asking for 65536 ms runs again at
    once. *)
Theorem C19_long_delay_refuted : exists s vs,
  sched_run (fun _ (w : unit) ts => (w, map (set_delay 65536) ts)) [100; 100] (sched_new [task_new 0] tt) = Ok (s, vs) /\
  map ran vs = [true; true].
Proof. compute_all. Qed.
Print Assumptions C19_long_delay_refuted.

(** ** C20: task bodies are threads *)

(** For every body whose macros have numbers below 256, every initial delay and
    every sequence of run() calls, the macro implementation does exactly what
    the blocking thread of TaskSpec.v does: same effects, same delays. *)
Theorem C20_body_is_thread : forall W (prog : list (instr W)) base fuel acts w d,
  0 <= base -> base + 1 + Z.of_nat (macros prog) < 256 ->
  task_runs fuel base prog (entry_init base) (task_new d) w acts =
  th_runs fuel prog (TReady 0) w (u16 d) acts.
Proof. exact task_refines_thread_lemma. Qed.
Print Assumptions C20_body_is_thread.

(** A loop with a yield, a wait and a delay. *)
Example C20_example :
  let prog := [IAct (fun w => w + 1); IYield; ICondTimeout (fun w => 10 <? w) (fun _ => 100);
               IAct (fun w => w * 2); IDelay (fun w => w); IJmp 0] in
  task_runs 20 7 prog (entry_init 7) (task_new 0) 1
    [(0, fun w => w); (5, fun w => w); (6, fun w => w + 1); (104, fun w => w); (105, fun w => w); (106, fun w => w); (107, fun w => w)] =
  Ok [(2, 0); (2, 0); (3, 0); (3, 0); (3, 0); (6, 6); (7, 6)].
Proof. vm_compute. reflexivity. Qed.

(** Bodies without jumps, where the statement at position pc appends pc to a
    log that nobody else touches: at any time the log is that of a prefix of
    the program: every statement in order, none twice ... *)
Theorem C20_in_order_once : forall E (body : list (instr (E * list nat))), forallb straight body = true ->
  (forall pc f, nth_error body pc = Some (IAct f) -> forall e l, snd (f (e, l)) = l ++ [pc]) ->
  forall base fuel acts e d, 0 <= base -> base + 1 + Z.of_nat (macros body) < 256 ->
  (length body < fuel)%nat ->
  (forall now env, In (now, env) acts -> forall x, snd (env x) = snd x) ->
  exists outs, task_runs fuel base body (entry_init base) (task_new d) (e, []) acts = Ok outs /\
    Forall (fun o => exists k, snd (fst o) = logs_of (firstn k body) 0) outs.
Proof. exact (fun E body => straight_lemma body). Qed.
Print Assumptions C20_in_order_once.

(** ... and if no condition holds the body up, it is complete after one run()
    more than it has macros, and stays so. *)
Theorem C20_completes : forall E (body : list (instr (E * list nat))), forallb straight body = true ->
  (forall pc f, nth_error body pc = Some (IAct f) -> forall e l, snd (f (e, l)) = l ++ [pc]) ->
  forall base fuel acts e d, 0 <= base -> base + 1 + Z.of_nat (macros body) < 256 ->
  (length body < fuel)%nat ->
  (forall now env, In (now, env) acts -> forall x, snd (env x) = snd x) ->
  (forall i, In i body -> forall s now x, may_continue i s now x = true) ->
  (macros body < length acts)%nat ->
  exists o outs, task_runs fuel base body (entry_init base) (task_new d) (e, []) acts = Ok (outs ++ [o]) /\
    snd (fst o) = logs_of body 0.
Proof. exact (fun E body => straight_progress_lemma body). Qed.
Print Assumptions C20_completes.

Definition log_pc (pc : nat) : instr (unit * list nat) := IAct (fun x => (fst x, snd x ++ [pc])).
Definition demo_prog : list (instr (unit * list nat)) := [log_pc 0; IYield; log_pc 2; log_pc 3; IDelay (fun _ => 5); log_pc 5].

Example C20_straight_example :
  forallb straight demo_prog = true /\
  (forall pc f, nth_error demo_prog pc = Some (IAct f) -> forall e l, snd (f (e, l)) = l ++ [pc]) /\
  (forall i, In i demo_prog -> forall s now x, may_continue i s now x = true) /\
  logs_of demo_prog 0 = [0; 2; 3; 5]%nat /\
  task_runs 10 0 demo_prog (entry_init 0) (task_new 0) (tt, []) [(0, fun x => x); (1, fun x => x); (2, fun x => x); (3, fun x => x)] =
    Ok [((tt, [0%nat]), 0); ((tt, [0; 2; 3]%nat), 5); ((tt, [0; 2; 3; 5]%nat), 5); ((tt, [0; 2; 3; 5]%nat), 5)].
Proof.
  split; [reflexivity|]. split.
  - intros pc f H e l. do 6 (destruct pc as [|pc]; [cbn in H; try discriminate; injection H as <-; reflexivity|]). destruct pc; discriminate.
  - split; [|split; vm_compute; reflexivity]. intros i H s now x. cbn in H.
    repeat (destruct H as [<-|H]; [reflexivity|]). contradiction.
Qed.

(** ** C21: two objects of one class *)

(** The resume point is shared: the second object starts in the middle of the
    body (it logs statement 2 without ever having executed statement 0). *)
Theorem C21_two_instances_refuted :
  two_runs 10 0 [log_pc 0; IYield; log_pc 2] (entry_init 0) (task_new 0, (tt, [])) (task_new 0, (tt, [])) [(true, 1); (false, 2); (true, 3)] =
  Ok [(true, (tt, [0])); (false, (tt, [2])); (true, (tt, [0]))]%nat.
Proof. vm_compute. reflexivity. Qed.
Print Assumptions C21_two_instances_refuted.

(** It can even read a timer that was never set. *)
Theorem C21_uninitialised_timer_refuted :
  two_runs 10 0 [ICondTimeout (fun _ : unit => false) (fun _ => 10)] (entry_init 0) (task_new 0, tt) (task_new 0, tt) [(true, 1); (false, 2)] =
  UB Uninitialised.
Proof. vm_compute. reflexivity. Qed.
Print Assumptions C21_uninitialised_timer_refuted.

(** ** C22: macro numbers above 255 *)

(** A body whose E_BEGIN_TASK is macro number 256 or later never executes
    anything, whatever it contains: the world only changes by the environment. *)
Theorem C22_dead_task_refuted : forall W (prog : list (instr W)) base fuel acts w d, 256 <= base ->
  exists outs, task_runs fuel base prog (entry_init base) (task_new d) w acts = Ok outs /\
    Forall (fun o => snd o = u16 d) outs /\
    map fst outs = map (fun k => fold_left (fun x e => snd e x) (firstn (S k) acts) w) (seq 0 (length acts)).
Proof. exact dead_lemma. Qed.
Print Assumptions C22_dead_task_refuted.

(** A body that straddles the limit stops at the yield. *)
Theorem C22_never_resumes_refuted :
  task_runs 10 255 [log_pc 0; IYield; log_pc 2] (entry_init 255) (task_new 0) (tt, []) [(0, fun x => x); (1, fun x => x); (2, fun x => x)] =
  Ok [((tt, [0%nat]), 0); ((tt, [0%nat]), 0); ((tt, [0%nat]), 0)].
Proof. vm_compute. reflexivity. Qed.
Print Assumptions C22_never_resumes_refuted.

(** ** C23: E_REENTER_COND_TIMEOUT *)

(** [acts]: the absolute times of the run() calls (the first one begins the
    wait at t0) with the value of the condition then.  The statement after the
    wait has been reached after the k-th call iff at some call up to it the
    condition was true or more than t ms had passed. *)
Theorem C23_wait_with_timeout : forall base fuel t t0 acts d, 0 <= base < 253 -> (2 < fuel)%nat -> 0 <= t < 4294967296 ->
  Forall (fun a => t0 <= fst a < t0 + 4294967296) acts -> (exists b acts', acts = (t0, b) :: acts') ->
  exists outs, task_runs fuel base (wait_prog t) (entry_init base) (task_new d) (false, false) (wait_acts acts) = Ok outs /\
    reached outs = map (fun k => existsb (fun a => snd a || (t <? fst a - t0)) (firstn (S k) acts)) (seq 0 (length acts)).
Proof. exact wait_lemma. Qed.
Print Assumptions C23_wait_with_timeout.

Example C23_example :
  let acts := [(4294967290, false); (4294967300, false); (4294967310, false); (4294967311, false)] in
  Forall (fun a => 4294967290 <= fst a < 4294967290 + 4294967296) acts /\
  map (fun k => existsb (fun a => snd a || (20 <? fst a - 4294967290)) (firstn (S k) acts)) (seq 0 (length acts)) =
    [false; false; false; true].
Proof. split; [repeat constructor; cbn; lia|vm_compute; reflexivity]. Qed.
