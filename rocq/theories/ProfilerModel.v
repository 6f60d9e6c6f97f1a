(* ProfilerModel.v: model of the sampling profiler, profiling/instrumentation.h
   104-230 (ProfilingStack, ThreadInfo, ScopedProfilingLabel) and
   profiling/profiler.h 277-369 (RecordStack, ProfilerThreadFunc, StartProfiling,
   FinishProfiling) with GEMMLOWP_PROFILING defined, as a transition system: any
   number of application threads and the profiler thread, one step of one thread
   at a time, in any interleaving.
   An application thread is named by the address of its ThreadInfo, so
   std::set<ThreadInfo*> is the increasing list of the registered threads.  Its
   program is the list of profiling operations it performs.  A label is the
   address of a string literal.
   Simplifications: memory is sequentially consistent; the addresses of two
   ThreadInfo objects are distinct even if one was freed before the other was
   allocated; pthread_key_create, new and vector::push_back succeed;
   WaitOneProfilerTick takes any time.  Reading the size and one label in
   RecordStack's loop is one step. *)
From Verif Require Import Base.

Inductive actor := App (i : Z) | Prof.
(* ScopedProfilingLabel's constructor and destructor, Update,
   RegisterCurrentThreadForProfiling, StartProfiling, FinishProfiling *)
Inductive op := OPush (l : Z) | OPop | OUpdate (l : Z) | ORegister | OStart | OFinish.

(* instrumentation.h 110-147, 161-176: a ThreadInfo; its stack's lock is held by
   k_lock; k_alive: allocated and not deleted *)
Definition kMaxSize : Z := 30.
Record info := mk_info { k_labels : Z -> Z; k_size : Z; k_lock : option actor; k_alive : bool }.
Definition new_info : info := mk_info (fun _ => 0) 0 None false.

(* where an application thread is; Locked, Stored and Unlocking refer to the
   operation at the head of its program *)
Inductive pc :=
  | Ready       (* between operations *)
  | Locked      (* holding the lock, before the first access *)
  | Stored      (* 123: label stored, size not yet; or profiler.h 352: flag set *)
  | Unlocking   (* about to release the lock *)
  | Joining     (* profiler.h 367 *)
  | Joined      (* profiler.h 368 *)
  | XErase      (* thread exit, ThreadExitCallback called (instrumentation.h 172) *)
  | XLocked     (* 174 *)
  | XUnlocking  (* end of ThreadExitCallback *)
  | XDelete     (* thread exit, DeleteThreadInfo called (183) *)
  | Gone.
Record thread := mk_thread { t_pc : pc; t_ops : list op }.

(* where the profiler thread is; [stacks] is the local vector (328) *)
Inductive pstate :=
  | PNone                                   (* no profiler thread *)
  | PTest (stacks : list (list Z))          (* 330 *)
  | PTick (stacks : list (list Z))          (* 331-333, about to lock *)
  | PIter (todo : list Z) (stacks : list (list Z))    (* 334, lock held *)
  | PCopy (t : Z) (todo : list Z) (dst : list Z) (stacks : list (list Z))  (* 312-315, stack lock of t held *)
  | PReport (stacks : list (list Z))        (* 343 *)
  | PDone.                                  (* 345 *)

Record state := mk_state {
  s_thread : Z -> thread; s_info : Z -> info; s_plock : option actor; s_set : list Z;
  s_is_prof : bool; s_should : bool; s_prof : pstate }.

(* what an observer of the run sees: completed operations, thread exits, ticks
   begun and ended, samples taken, and reports (number of threads, samples) *)
Inductive event :=
  | EOp (i : Z) (o : op) | EExit (i : Z)
  | ETick | ESample (i : Z) (stack : list Z) | ETock
  | EReport (threads : Z) (stacks : list (list Z)).

Definition upd {A} (f : Z -> A) (i : Z) (v : A) : Z -> A := fun j => if j =? i then v else f j.
Definition set_thread s i t := mk_state (upd (s_thread s) i t) (s_info s) (s_plock s) (s_set s) (s_is_prof s) (s_should s) (s_prof s).
Definition set_info s i k := mk_state (s_thread s) (upd (s_info s) i k) (s_plock s) (s_set s) (s_is_prof s) (s_should s) (s_prof s).
Definition set_plock s o := mk_state (s_thread s) (s_info s) o (s_set s) (s_is_prof s) (s_should s) (s_prof s).
Definition set_set s l := mk_state (s_thread s) (s_info s) (s_plock s) l (s_is_prof s) (s_should s) (s_prof s).
Definition set_is_prof s b := mk_state (s_thread s) (s_info s) (s_plock s) (s_set s) b (s_should s) (s_prof s).
Definition set_should s b := mk_state (s_thread s) (s_info s) (s_plock s) (s_set s) (s_is_prof s) b (s_prof s).
Definition set_prof s p := mk_state (s_thread s) (s_info s) (s_plock s) (s_set s) (s_is_prof s) (s_should s) p.
Definition go s i p := set_thread s i (mk_thread p (t_ops (s_thread s i))).

(* std::set<ThreadInfo*>::insert, erase *)
Fixpoint insert (i : Z) (l : list Z) : list Z :=
  match l with
  | [] => [i]
  | j :: l' => if i <? j then i :: l else if i =? j then l else j :: insert i l'
  end.
Definition erase (i : Z) (l : list Z) : list Z := filter (fun j => negb (j =? i)) l.

Definition on_stack (o : op) : bool := match o with OPush _ | OPop | OUpdate _ => true | _ => false end.

(* a failing assertion or abort (instrumentation.h 122, 129, 135, profiler.h 351,
   361), or a use of a deleted ThreadInfo (profiler.h 310-313) *)
Definition fault (s : state) (a : actor) : bool :=
  match a with
  | App i =>
    let k := s_info s i in
    match t_pc (s_thread s i), t_ops (s_thread s i) with
    | Locked, OPush _ :: _ => negb (k_size k <? kMaxSize)
    | Locked, OPop :: _ => negb (0 <? k_size k)
    | Locked, OUpdate _ :: _ => k_size k =? 0
    | Locked, OStart :: _ => s_is_prof s
    | Locked, OFinish :: _ => negb (s_is_prof s)
    | _, _ => false
    end
  | Prof =>
    match s_prof s with
    | PIter (t :: _) _ => negb (k_alive (s_info s t))
    | PCopy t _ _ _ => negb (k_alive (s_info s t))
    | _ => false
    end
  end.

Section Steps.
(* the order in which a thread's two key destructors run is unspecified *)
Variable delete_first : bool.

(* one step of application thread i; None: it has to wait, or is finished *)
Definition step_app (s : state) (i : Z) : option (option event * state) :=
  let k := s_info s i in
  let rest := tl (t_ops (s_thread s i)) in
  let finish o s' := Some (Some (EOp i o), set_thread s' i (mk_thread Ready rest)) in
  match t_pc (s_thread s i), t_ops (s_thread s i) with
  (* thread exit *)
  | Ready, [] => Some (None, go s i (if negb (k_alive k) then Gone else if delete_first then XDelete else XErase))
  | XErase, _ => match s_plock s with None => Some (None, go (set_plock s (Some (App i))) i XLocked) | Some _ => None end
  | XLocked, _ => Some (None, go (set_set s (erase i (s_set s))) i XUnlocking)
  | XUnlocking, _ => Some (Some (EExit i), go (set_plock s None) i (if delete_first then Gone else XDelete))
  | XDelete, _ => Some (None, go (set_info s i (mk_info (k_labels k) (k_size k) (k_lock k) false)) i (if delete_first then XErase else Gone))
  | Gone, _ => None
  (* taking the lock; 178-198: the ThreadInfo is created on first use *)
  | Ready, o :: _ =>
    if on_stack o then
      match k_lock k with
      | None => Some (None, go (set_info s i (mk_info (k_labels k) (k_size k) (Some (App i)) true)) i Locked)
      | Some _ => None
      end
    else
      match s_plock s with
      | None => Some (None, go (set_plock s (Some (App i))) i Locked)
      | Some _ => None
      end
  (* 120-125 *)
  | Locked, OPush l :: _ => Some (None, go (set_info s i (mk_info (upd (k_labels k) (k_size k) l) (k_size k) (k_lock k) (k_alive k))) i Stored)
  | Stored, OPush _ :: _ => Some (None, go (set_info s i (mk_info (k_labels k) (k_size k + 1) (k_lock k) (k_alive k))) i Unlocking)
  (* 127-131 *)
  | Locked, OPop :: _ => Some (None, go (set_info s i (mk_info (k_labels k) (k_size k - 1) (k_lock k) (k_alive k))) i Unlocking)
  (* 133-137 *)
  | Locked, OUpdate l :: _ => Some (None, go (set_info s i (mk_info (upd (k_labels k) (k_size k - 1) l) (k_size k) (k_lock k) (k_alive k))) i Unlocking)
  (* 222-225 *)
  | Locked, ORegister :: _ =>
    Some (None, go (set_set (set_info s i (mk_info (k_labels k) (k_size k) (k_lock k) true)) (insert i (s_set s))) i Unlocking)
  (* profiler.h 349-355 *)
  | Locked, OStart :: _ => Some (None, go (set_is_prof s true) i Stored)
  | Stored, OStart :: _ => Some (None, go (set_prof (set_should s false) (PTest [])) i Unlocking)
  (* profiler.h 358-369 *)
  | Locked, OFinish :: _ => Some (None, go (set_should s true) i Unlocking)
  | Unlocking, OFinish :: _ => Some (None, go (set_plock s None) i Joining)
  | Joining, _ => match s_prof s with PDone => Some (None, go (set_prof s PNone) i Joined) | _ => None end
  | Joined, _ => finish OFinish (set_is_prof s false)
  (* end of the ScopedLock's scope *)
  | Unlocking, o :: _ =>
    if on_stack o then finish o (set_info s i (mk_info (k_labels k) (k_size k) None (k_alive k)))
    else finish o (set_plock s None)
  | _, _ => None
  end.

(* one step of the profiler thread *)
Definition step_prof (s : state) : option (option event * state) :=
  match s_prof s with
  | PNone | PDone => None
  | PTest stacks => Some (None, set_prof s (if s_should s then PReport stacks else PTick stacks))
  | PTick stacks =>
    match s_plock s with
    | None => Some (Some ETick, set_prof (set_plock s (Some Prof)) (PIter (s_set s) stacks))
    | Some _ => None
    end
  | PIter [] stacks => Some (Some ETock, set_prof (set_plock s None) (PTest stacks))
  | PIter (t :: todo) stacks =>
    let k := s_info s t in
    match k_lock k with
    | None => Some (None, set_prof (set_info s t (mk_info (k_labels k) (k_size k) (Some Prof) (k_alive k))) (PCopy t todo [] stacks))
    | Some _ => None
    end
  | PCopy t todo dst stacks =>
    let k := s_info s t in
    let n := Z.of_nat (length dst) in
    if n <? k_size k then Some (None, set_prof s (PCopy t todo (dst ++ [k_labels k n]) stacks))
    else Some (Some (ESample t dst),
               set_prof (set_info s t (mk_info (k_labels k) (k_size k) None (k_alive k))) (PIter todo (stacks ++ [dst])))
  | PReport stacks => Some (Some (EReport (Z.of_nat (length (s_set s))) stacks), set_prof s PDone)
  end.

Definition step (s : state) (a : actor) : option (option event * state) :=
  if fault s a then None else match a with App i => step_app s i | Prof => step_prof s end.

Definition init (programs : Z -> list op) : state :=
  mk_state (fun i => mk_thread Ready (programs i)) (fun _ => new_info) None [] false false PNone.
(* the runs of the system, with the events so far *)
Inductive runs (programs : Z -> list op) : list event -> state -> Prop :=
  | runs_init : runs programs [] (init programs)
  | runs_quiet tr s a s' : runs programs tr s -> step s a = Some (None, s') -> runs programs tr s'
  | runs_event tr s a e s' : runs programs tr s -> step s a = Some (Some e, s') -> runs programs (tr ++ [e]) s'.
End Steps.

(* the memory accesses of an actor's next step: location, true for a write *)
Inductive location := LStack (i : Z) | LSet | LIsProfiling | LShouldFinish.
Definition accesses (s : state) (a : actor) : list (location * bool) :=
  match a with
  | App i =>
    match t_pc (s_thread s i), t_ops (s_thread s i) with
    | Locked, (OPush _ | OPop | OUpdate _) :: _ => [(LStack i, true)]
    | Stored, OPush _ :: _ => [(LStack i, true)]
    | Locked, ORegister :: _ => [(LSet, true)]
    | XLocked, _ => [(LSet, true)]
    | XDelete, _ => [(LStack i, true)]
    | Locked, OStart :: _ => [(LIsProfiling, true)]
    | Stored, OStart :: _ => [(LShouldFinish, true)]
    | Locked, OFinish :: _ => [(LIsProfiling, false); (LShouldFinish, true)]
    | Joined, _ => [(LIsProfiling, true)]
    | _, _ => []
    end
  | Prof =>
    match s_prof s with
    | PTest _ => [(LShouldFinish, false)]
    | PIter _ _ => [(LSet, false)]
    | PCopy t _ _ _ => [(LSet, false); (LStack t, false)]
    | PReport _ => [(LSet, false)]
    | _ => []
    end
  end.
