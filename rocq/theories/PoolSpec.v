(* PoolSpec.v: what running a program of batches on the pool should amount to.
   Uses only [interleaving] and [execution] of GemmContract.v. *)
From Coq Require Import List Arith.
Import ListNotations.
From Verif Require Import GemmContract PoolModel.
Local Open Scope nat_scope.

(* in a batch of n tasks, task i is for worker i, except the last one, which
   the caller runs *)
Definition runner (n i : nat) : thread := if S i =? n then Caller else Worker i.
(* the actions of the tasks of a batch, each tagged with the thread that is to
   perform it *)
Definition assigned {A} (b : list (list A)) : list (list (thread * A)) :=
  map (fun p => map (pair (runner (length b) (fst p))) (snd p)) (combine (seq 0 (length b)) b).

(* the actions performed so far: those of the batches whose Execute call has
   returned, batch after batch, each action exactly once and in the order of its
   task; then some of those of the current batch *)
Definition performed {A} (program : list (list (list A))) (returned : nat) (trace : list (thread * A)) : Prop :=
  exists tr1 tr2, trace = tr1 ++ tr2 /\
    execution (map assigned (firstn returned program)) tr1 /\
    match nth_error program returned with
    | Some b => exists tr3, interleaving (assigned b) (tr2 ++ tr3)
    | None => tr2 = []
    end.

(* a schedule is an infinite sequence of scheduling decisions; a decision that
   is not enabled does nothing *)
Fixpoint state_at {A} (spins : nat) (s : state A) (sched : nat -> label) (n : nat) : state A :=
  match n with
  | O => s
  | S k => let s' := state_at spins s sched k in
           match step spins s' (sched k) with Some s'' => s'' | None => s' end
  end.
(* every thread is scheduled again and again, and spurious wake-ups stop *)
Definition fair (sched : nat -> label) : Prop :=
  (forall n, exists k, n <= k /\ sched k = LCaller) /\
  (forall i n, exists k, n <= k /\ sched k = LWorker i) /\
  (exists n, forall k i, n <= k -> sched k <> LSpurious i).

(* a finite run: the labels taken *)
Inductive run {A} (spins : nat) : state A -> list label -> state A -> Prop :=
  | run_nil : forall s, run spins s [] s
  | run_cons : forall s l s' ls s'', step spins s l = Some s' -> run spins s' ls s'' -> run spins s (l :: ls) s''.
Definition is_spurious (l : label) : bool := match l with LSpurious _ => true | _ => false end.

(* a bound on the number of steps, spurious wake-ups aside *)
Definition step_bound {A} (spins : nat) (program : list (list (list A))) : nat :=
  2 + list_sum (map (fun b => 5 + list_sum (map (fun t => length t + 2 * spins + 44) b)) program).

(* a worker that has nothing to do and waits to be told what to do next *)
Definition waiting {A} (w : worker A) : Prop :=
  w_state w = Ready /\ w_task w = None /\
  match w_pc w with WLoad _ | WWaitLock | WWaitLoad | WSleep | WWake => True | _ => False end.
(* the thread of worker w is about to use its task_ or to write its state_;
   the caller is about to do so with worker i's *)
Definition worker_uses {A} (w : worker A) : Prop :=
  match w_pc w with WCheck | WRun _ | WStore => True | _ => False end.
Definition caller_uses {A} (s : state A) (i : nat) : Prop :=
  match s_pc s with
  | MGive j CCheck | MGive j CStore | MDel j CCheck | MDel j CStore => i = j
  | _ => False
  end.
(* the thread of the worker has returned and nobody holds its mutex *)
Definition terminated {A} (w : worker A) : Prop := w_pc w = WDone /\ w_owner w = None /\ w_task w = None.

(* a fair schedule: between two visits of the caller at k = m^2 and (m+1)^2,
   workers 0 .. 2m-1 take a turn *)
Definition sweep (k : nat) : label :=
  match k - Nat.sqrt k * Nat.sqrt k with O => LCaller | S i => LWorker i end.
