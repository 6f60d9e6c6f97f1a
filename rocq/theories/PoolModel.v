(* PoolModel.v: model of the worker pool of internal/multi_thread_gemm.h
   (WaitForVariableChange 110-137, BlockingCounter 147-210, Worker 221-356,
   WorkersPool 365-456) as a transition system: one step is one shared-memory
   operation of one thread, executions are arbitrary interleavings of steps.
   The thread that calls Execute (the caller) runs a program: a list of batches
   of tasks, each handed to WorkersPool::Execute, and finally destroys the pool.
   A task's Run is a list of actions (of any type A, for instance stores).
   Simplifications: memory is sequentially consistent; profiling labels, NOPs,
   sleeping in BlockingCounter::Wait and memory allocation are left out.
   Waiting is modelled by the step not being enabled.  A failed assertion or an
   abort() sets s_failed. *)
From Coq Require Import List Arith Bool Lia.
Import ListNotations.


Section Pool.
Context {A : Type}.
Definition task := list A.

(* 223-228 *)
Inductive wstate := ThreadStartup | Ready | HasWork | ExitAsSoonAsPossible.
(* who holds state_mutex_ *)
Inductive owner := OCaller | OWorker.

(* where a worker thread is *)
Inductive wpc :=
  | WLock                (* 254, in ChangeState(Ready) called from 300 or 313 *)
  | WCheck               (* 255-276: read the old state, assertions, start task_->Run() *)
  | WRun (rest : task)   (* 276: task_->Run(), what is left of it; then 277 *)
  | WStore               (* 288 *)
  | WBroadcast           (* 289 *)
  | WUnlock              (* 290 *)
  | WDec                 (* 292 *)
  | WLoad (nops : nat)   (* 113 and 118-125: busy waiting *)
  | WWaitLock            (* 129 *)
  | WWaitLoad            (* 130, 133 and the test in 131 *)
  | WSleep               (* 132: inside pthread_cond_wait, mutex released *)
  | WWake                (* 132: woken, about to take the mutex again *)
  | WWaitUnlock (v : wstate)  (* 135 *)
  | WAct (v : wstate)    (* 310-320 *)
  | WDone.               (* 317: the thread has returned *)

Record worker := mk_worker {
  w_state : wstate; w_task : option task; w_owner : option owner; w_pc : wpc }.
Definition set_pc (w : worker) (pc : wpc) := mk_worker (w_state w) (w_task w) (w_owner w) pc.
Definition set_owner (w : worker) (o : option owner) := mk_worker (w_state w) (w_task w) o (w_pc w).
Definition set_task (w : worker) (t : option task) := mk_worker (w_state w) t (w_owner w) (w_pc w).
Definition set_state (w : worker) (v : wstate) := mk_worker v (w_task w) (w_owner w) (w_pc w).
(* 230-237 *)
Definition new_worker : worker := mk_worker ThreadStartup None None WLock.

(* where the caller is inside ChangeState(HasWork or Exit) *)
Inductive cpc := CLock (* 254 *) | CCheck (* 255-287 *) | CStore (* 288 *) | CBroadcast (* 289 *) | CUnlock (* 290 *).
(* where the caller is *)
Inductive mpc :=
  | MIdle                   (* between calls *)
  | MCreate                 (* 382, 429-432 *)
  | MSpawn                  (* 433-435 *)
  | MCreateWait             (* 436 *)
  | MReset                  (* 383-384 *)
  | MGive (i : nat) (c : cpc)   (* 385-387 *)
  | MRun (rest : task)      (* 389-391 *)
  | MWait                   (* 393 *)
  | MDel (i : nat) (c : cpc)    (* 370-371, 240 *)
  | MJoin (i : nat)         (* 241-243 *)
  | MEnd.

(* who performed an action *)
Inductive thread := Caller | Worker (i : nat).

Record state := mk_state {
  s_workers : list worker; s_count : nat; s_pc : mpc; s_batch : list task;
  s_todo : list (list task); s_returned : nat; s_trace : list (thread * A); s_failed : bool }.
Definition init (program : list (list task)) : state := mk_state [] 0 MIdle [] program 0 [] false.

Definition fail (s : state) : state :=
  mk_state (s_workers s) (s_count s) (s_pc s) (s_batch s) (s_todo s) (s_returned s) (s_trace s) true.
Definition with_pc (s : state) (pc : mpc) : state :=
  mk_state (s_workers s) (s_count s) pc (s_batch s) (s_todo s) (s_returned s) (s_trace s) (s_failed s).
Definition with_count (s : state) (n : nat) : state :=
  mk_state (s_workers s) n (s_pc s) (s_batch s) (s_todo s) (s_returned s) (s_trace s) (s_failed s).
Definition with_workers (s : state) (l : list worker) : state :=
  mk_state l (s_count s) (s_pc s) (s_batch s) (s_todo s) (s_returned s) (s_trace s) (s_failed s).
Definition emit (s : state) (t : thread) (a : A) : state :=
  mk_state (s_workers s) (s_count s) (s_pc s) (s_batch s) (s_todo s) (s_returned s) (s_trace s ++ [(t, a)]) (s_failed s).

Fixpoint upd {X} (l : list X) (i : nat) (x : X) : list X :=
  match l, i with
  | [], _ => []
  | _ :: t, O => x :: t
  | h :: t, S n => h :: upd t n x
  end.
Definition set_worker (s : state) (i : nat) (w : worker) : state := with_workers s (upd (s_workers s) i w).

(* a step of worker i; spins is how often the busy wait of 118-125 loads the
   variable (kMaxBusyWaitNOPs over the NOPs of one round) *)
Definition worker_step (spins : nat) (s : state) (i : nat) (w : worker) : option state :=
  let go w' := Some (set_worker s i w') in
  match w_pc w with
  | WLock => match w_owner w with None => go (set_pc (set_owner w (Some OWorker)) WCheck) | Some _ => None end
  | WCheck =>
      match w_state w with
      | ThreadStartup | HasWork =>
          go (set_pc w (match w_task w with Some t => WRun t | None => WStore end))
      | _ => Some (fail s)
      end
  | WRun (a :: rest) => Some (emit (set_worker s i (set_pc w (WRun rest))) (Worker i) a)
  | WRun [] => go (set_pc (set_task w None) WStore)
  | WStore => go (set_pc (set_state w Ready) WBroadcast)
  | WBroadcast => go (set_pc w WUnlock) (* only this thread ever waits on state_cond_ *)
  | WUnlock => go (set_pc (set_owner w None) WDec)
  | WDec => (* 166-171 *)
      match s_count s with
      | O => Some (fail s)
      | S n => Some (with_count (set_worker s i (set_pc w (WLoad spins))) n)
      end
  | WLoad n =>
      match w_state w with
      | Ready => go (set_pc w (match n with O => WWaitLock | S n' => WLoad n' end))
      | v => go (set_pc w (WAct v))
      end
  | WWaitLock => match w_owner w with None => go (set_pc (set_owner w (Some OWorker)) WWaitLoad) | Some _ => None end
  | WWaitLoad =>
      match w_state w with
      | Ready => go (set_pc (set_owner w None) WSleep)
      | v => go (set_pc w (WWaitUnlock v))
      end
  | WSleep => None
  | WWake => match w_owner w with None => go (set_pc (set_owner w (Some OWorker)) WWaitLoad) | Some _ => None end
  | WWaitUnlock v => go (set_pc (set_owner w None) (WAct v))
  | WAct HasWork => go (set_pc w WLock)
  | WAct ExitAsSoonAsPossible => go (set_pc w WDone)
  | WAct _ => Some (fail s)
  | WDone => None
  end.

(* pthread_cond_broadcast by the caller *)
Definition wake (w : worker) : worker := match w_pc w with WSleep => set_pc w WWake | _ => w end.

(* a step of the caller inside ChangeState on worker i: 254-290; [next] is
   where it goes afterwards *)
Definition change_state_step (s : state) (i : nat) (c : cpc) (new_state : wstate) (t : option task)
    (here : cpc -> mpc) (next : mpc) : option state :=
  match nth_error (s_workers s) i with
  | None => Some (fail s)
  | Some w =>
      let go w' pc := Some (with_pc (set_worker s i w') pc) in
      match c with
      | CLock => match w_owner w with None => go (set_owner w (Some OCaller)) (here CCheck) | Some _ => None end
      | CCheck =>
          let ok := match w_state w, new_state with
                    | Ready, HasWork => true | Ready, ExitAsSoonAsPossible => true
                    | HasWork, ExitAsSoonAsPossible => true
                    | _, _ => false
                    end in
          if ok then
            match new_state with
            | HasWork =>
                match w_task w with
                | None => go (set_task w t) (here CStore)
                | Some _ => Some (fail s)
                end
            | _ => go w (here CStore)
            end
          else Some (fail s)
      | CStore => go (set_state w new_state) (here CBroadcast)
      | CBroadcast => go (wake w) (here CUnlock)
      | CUnlock => go (set_owner w None) next
      end
  end.

(* workers_count of the current batch *)
Definition batch_workers (s : state) : nat := length (s_batch s) - 1.
Definition caller_step (s : state) : option state :=
  match s_pc s with
  | MIdle =>
      match s_todo s with
      | [] => Some (with_pc s (MDel 0 CLock))
      | [] :: _ => Some (fail s) (* 378 *)
      | b :: rest => Some (mk_state (s_workers s) (s_count s) MCreate b rest (s_returned s) (s_trace s) (s_failed s))
      end
  | MCreate =>
      if batch_workers s <=? length (s_workers s) then Some (with_pc s MReset)
      else if s_count s =? 0 then
        Some (with_pc (with_count s (batch_workers s - length (s_workers s))) MSpawn)
      else Some (fail s)
  | MSpawn =>
      if length (s_workers s) <? batch_workers s then Some (with_workers s (s_workers s ++ [new_worker]))
      else Some (with_pc s MCreateWait)
  | MCreateWait => if s_count s =? 0 then Some (with_pc s MReset) else None
  | MReset =>
      if s_count s =? 0 then Some (with_pc (with_count s (batch_workers s)) (MGive 0 CLock))
      else Some (fail s)
  | MGive i c =>
      if i <? batch_workers s then
        change_state_step s i c HasWork (nth_error (s_batch s) i) (MGive i) (MGive (S i) CLock)
      else Some (with_pc s (MRun (last (s_batch s) [])))
  | MRun (a :: rest) => Some (emit (with_pc s (MRun rest)) Caller a)
  | MRun [] => Some (with_pc s MWait)
  | MWait =>
      if s_count s =? 0 then
        Some (mk_state (s_workers s) (s_count s) MIdle [] (s_todo s) (S (s_returned s)) (s_trace s) (s_failed s))
      else None
  | MDel i c =>
      if i <? length (s_workers s) then
        change_state_step s i c ExitAsSoonAsPossible None (MDel i) (MJoin i)
      else Some (with_pc s MEnd)
  | MJoin i =>
      match nth_error (s_workers s) i with
      | None => Some (fail s)
      | Some w =>
          match w_pc w with
          | WDone => match w_owner w with
                     | None => Some (with_pc s (MDel (S i) CLock))
                     | Some _ => Some (fail s) (* destroying a locked mutex *)
                     end
          | _ => None
          end
      end
  | MEnd => None
  end.

(* a scheduling decision: some thread takes a step, or a sleeping worker wakes
   up spuriously *)
Inductive label := LCaller | LWorker (i : nat) | LSpurious (i : nat).
Definition step (spins : nat) (s : state) (l : label) : option state :=
  if s_failed s then None else
  match l with
  | LCaller => caller_step s
  | LWorker i => match nth_error (s_workers s) i with Some w => worker_step spins s i w | None => None end
  | LSpurious i =>
      match nth_error (s_workers s) i with
      | Some w => match w_pc w with WSleep => Some (set_worker s i (set_pc w WWake)) | _ => None end
      | None => None
      end
  end.
Inductive reachable (spins : nat) (program : list (list task)) : state -> Prop :=
  | r_init : reachable spins program (init program)
  | r_step : forall s l s', reachable spins program s -> step spins s l = Some s' -> reachable spins program s'.
End Pool.
Arguments task : clear implicits.
Arguments state : clear implicits.
Arguments worker : clear implicits.
