(* Props_Pool.v: property theorems C11-C13, about the worker pool (PoolModel.v).
   A program is the list of batches of tasks handed to WorkersPool::Execute one
   after another, before the pool is destroyed; a task is a list of actions.
   [reachable spins program s]: some interleaving of the caller, the workers and
   spurious wake-ups leads to state s.  s_returned counts the Execute calls that
   have returned, s_trace lists the actions performed so far, each with the
   thread that performed it.  [execution] and [interleaving] are defined in
   GemmContract.v, [assigned] in PoolSpec.v. *)
From Coq Require Import List ZArith Permutation.
Import ListNotations.
From Verif Require Import Base CommonModel PackModel GemmSpec ComputeModel KernelSpec OutputModel OutputSpec GemmModel GemmContract GemmExample
  PoolModel PoolSpec PoolProofs4 PoolProofs5.

(* C11: what has been performed at any time: each returned batch completely,
   in order, each task by the thread it was assigned to and in task order; then
   part of the current batch *)
Theorem C11_performed : forall A (program : list (list (list A))) spins s,
  (forall b, In b program -> b <> []) -> reachable spins program s ->
  performed program (s_returned s) (s_trace s).
Proof. exact @exec_performed. Qed.
Print Assumptions C11_performed.

(* when an Execute call has returned, all tasks up to then are finished and no
   worker is running one *)
Theorem C11_execute_returns_when_done : forall A (program : list (list (list A))) spins s,
  (forall b, In b program -> b <> []) -> reachable spins program s -> s_pc s = MIdle ->
  execution (map assigned (firstn (s_returned s) program)) (s_trace s) /\
  forall i w, nth_error (s_workers s) i = Some w -> waiting w.
Proof. exact @exec_returned. Qed.
Print Assumptions C11_execute_returns_when_done.

(* in particular the actions performed are those of the tasks, each once *)
Theorem C11_each_once : forall A (program : list (list (list A))) spins s,
  (forall b, In b program -> b <> []) -> reachable spins program s -> s_pc s = MIdle ->
  Permutation (map snd (s_trace s)) (concat (concat (firstn (s_returned s) program))).
Proof. exact @exec_once. Qed.
Print Assumptions C11_each_once.

(* two batches, of two and of three tasks *)
Definition ex_program : list (list (list nat)) := [[[1; 2; 3]; [4; 5]]; [[6]; [7; 8]; [9]]]%nat.
Definition ex_sched (k : nat) : label := nth (k mod 5) [LCaller; LWorker 0; LWorker 1; LWorker 0; LSpurious 0] LCaller.
Definition ex_at (n : nat) : state nat := state_at 1 (init ex_program) ex_sched n.
Example C11_example : (forall b, In b ex_program -> b <> []) /\
  reachable 1 ex_program (ex_at 91) /\ s_pc (ex_at 91) = MIdle /\ s_returned (ex_at 91) = 1%nat /\
  s_trace (ex_at 91) = [(Caller, 4); (Caller, 5); (Worker 0, 1); (Worker 0, 2); (Worker 0, 3)]%nat.
Proof.
  split; [intros b [<-|[<-|[]]]; discriminate|]. split; [apply PoolProofs3.state_at_reachable|].
  vm_compute. auto.
Qed.

(* C12: in every reachable state before the end some thread can take a step *)
Theorem C12_no_deadlock : forall A (program : list (list (list A))) spins s,
  (forall b, In b program -> b <> []) -> reachable spins program s -> s_pc s <> MEnd ->
  exists l s', is_spurious l = false /\ step spins s l = Some s'.
Proof. exact @no_deadlock. Qed.
Print Assumptions C12_no_deadlock.

(* however the threads are scheduled, the number of steps is bounded by the
   program and the number of spurious wake-ups *)
Theorem C12_bounded : forall A (program : list (list (list A))) spins labels s,
  (forall b, In b program -> b <> []) -> run spins (init program) labels s ->
  (length (filter (fun l => negb (is_spurious l)) labels) <= step_bound spins program + 4 * length (filter is_spurious labels))%nat.
Proof. exact @bounded. Qed.
Print Assumptions C12_bounded.

(* every fair schedule gets to the end *)
Theorem C12_fair_schedules_terminate : forall A (program : list (list (list A))) spins sched,
  (forall b, In b program -> b <> []) -> fair sched ->
  exists n, s_pc (state_at spins (init program) sched n) = MEnd.
Proof. exact @fair_terminates. Qed.
Print Assumptions C12_fair_schedules_terminate.
Example C12_example : fair sweep /\ s_pc (state_at 0 (init [[[1]; [2]]]%nat) sweep (40 * 40)) = MEnd /\ step_bound 1 ex_program = 251%nat.
Proof. split; [exact sweep_fair|]. vm_compute. auto. Qed.

(* C13: no assertion fails and no abort is reached, whatever the batches *)
Theorem C13_no_failure : forall A (program : list (list (list A))) spins s,
  (forall b, In b program -> b <> []) -> reachable spins program s -> s_failed s = false.
Proof. exact @no_failure. Qed.
Print Assumptions C13_no_failure.

(* a worker and the caller never use the worker's task pointer, or write its
   state, at the same time *)
Theorem C13_no_race : forall A (program : list (list (list A))) spins s i w,
  (forall b, In b program -> b <> []) -> reachable spins program s -> nth_error (s_workers s) i = Some w ->
  worker_uses w -> caller_uses s i -> False.
Proof. exact @no_race. Qed.
Print Assumptions C13_no_race.

(* after the destructor of the pool: every batch was executed, every worker
   thread has returned and its mutex is free *)
Theorem C13_shutdown : forall A (program : list (list (list A))) spins s,
  (forall b, In b program -> b <> []) -> reachable spins program s -> s_pc s = MEnd ->
  s_returned s = length program /\ execution (map assigned program) (s_trace s) /\
  forall i w, nth_error (s_workers s) i = Some w -> terminated w.
Proof. exact @shutdown. Qed.
Print Assumptions C13_shutdown.
Example C13_example : reachable 1 ex_program (ex_at 400) /\ s_pc (ex_at 400) = MEnd /\ length (s_workers (ex_at 400)) = 2%nat /\
  s_trace (ex_at 400) = [(Caller, 4); (Caller, 5); (Worker 0, 1); (Worker 0, 2); (Worker 0, 3);
                          (Worker 0, 6); (Caller, 9); (Worker 1, 7); (Worker 1, 8)]%nat /\
  (exists w, nth_error (s_workers (ex_at 69)) 0 = Some w /\ worker_uses w) /\ caller_uses (ex_at 36) 0.
Proof.
  split; [apply PoolProofs3.state_at_reachable|]. split; [vm_compute; reflexivity|]. split; [vm_compute; reflexivity|].
  split; [vm_compute; reflexivity|]. split; [|vm_compute; reflexivity]. eexists. split; [vm_compute; reflexivity|exact I].
Qed.

(* a GEMM on a pool with a history: after its last Execute call returned, its
   stores, those after the stores of the earlier batches, have turned the
   result memory into the one specified *)
Theorem C13_gemm_on_used_pool :
  forall m K t hw max_num_threads sc scs lhs rhs result lo ro p L R LO RO out before,
  gemm_config_ok m K t hw max_num_threads result ->
  gemm_problem m K (op_mem lhs) (op_map lhs) (op_mem rhs) (op_map rhs) result lo ro p L R LO RO out ->
  valid_view before result ->
  exists phases, DispatchGemmShape m K t hw max_num_threads sc scs lhs rhs result lo ro p = Some phases /\
    forall spins previous later s,
      (forall b, In b (previous ++ later) -> b <> []) ->
      reachable spins (previous ++ phases ++ later) s ->
      s_returned s = (length previous + length phases)%nat -> s_pc s = MIdle ->
      exists tr1 tr2, map snd (s_trace s) = tr1 ++ tr2 /\ execution previous tr1 /\
        exists after, perform tr2 before = Some after /\ stored before after result out.
Proof. exact gemm_on_pool. Qed.
Print Assumptions C13_gemm_on_used_pool.

(* a GEMM on a new pool terminates under every fair schedule, correctly *)
Theorem C12_gemm_on_pool_terminates :
  forall m K t hw max_num_threads sc scs lhs rhs result lo ro p L R LO RO out before,
  gemm_config_ok m K t hw max_num_threads result ->
  gemm_problem m K (op_mem lhs) (op_map lhs) (op_mem rhs) (op_map rhs) result lo ro p L R LO RO out ->
  valid_view before result ->
  exists phases, DispatchGemmShape m K t hw max_num_threads sc scs lhs rhs result lo ro p = Some phases /\
    forall spins sched, fair sched ->
      exists n, let s := state_at spins (init phases) sched n in
        s_pc s = MEnd /\ s_failed s = false /\
        exists after, perform (map snd (s_trace s)) before = Some after /\ stored before after result out.
Proof. exact gemm_on_pool_fair. Qed.
Print Assumptions C12_gemm_on_pool_terminates.
Example C12_gemm_example : gemm_config_ok Trap (ReferenceKernel Trap ex_fmt1) (ex_tune 6400 64000) 4 0 big_result /\
  HowManyThreads Trap (kRows ex_fmt1) 4 0 (mm_rows big_result) (mm_cols big_result) 4096 = Some 2.
Proof. split; [apply big_config_ok|vm_compute; reflexivity]. Qed.
