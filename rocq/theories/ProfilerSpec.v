(* ProfilerSpec.v: what the profiler should record, from the events of a run. *)
From Coq Require Import Relation_Operators.
From Verif Require Import Base ProfilerModel.

(* the operations thread i has completed *)
Definition op_by (i : Z) (e : event) : list op := match e with EOp j o => if j =? i then [o] else [] | _ => [] end.
Definition ops_of (i : Z) (tr : list event) : list op := flat_map (op_by i) tr.
(* the labels in scope after some operations, outermost first *)
Definition apply_op (labels : list Z) (o : op) : list Z :=
  match o with
  | OPush l => labels ++ [l]
  | OPop => removelast labels
  | OUpdate l => removelast labels ++ [l]
  | _ => labels
  end.
Definition labels_after (ops : list op) : list Z := fold_left apply_op ops [].
(* the threads registered after some events *)
Definition apply_registration (l : list Z) (e : event) : list Z :=
  match e with EOp i ORegister => insert i l | EExit i => erase i l | _ => l end.
Definition registered (tr : list event) : list Z := fold_left apply_registration tr [].
(* thread i has been registered and has not exited since *)
Definition is_registered (tr : list event) (i : Z) : Prop :=
  exists before after, tr = before ++ EOp i ORegister :: after /\ ~ In (EExit i) after.
(* the samples since profiling was last started *)
Definition apply_sample (l : list (list Z)) (e : event) : list (list Z) :=
  match e with EOp _ OStart => [] | ESample _ st => l ++ [st] | _ => l end.
Definition samples (tr : list event) : list (list Z) := fold_left apply_sample tr [].
Definition sampled_threads (tr : list event) : list Z :=
  flat_map (fun e => match e with ESample i _ => [i] | _ => [] end) tr.
Definition tick_event (e : event) : bool := match e with ETick | ETock => true | _ => false end.

(* a program pops, updates and pushes labels only when it can *)
Definition op_ok (labels : list Z) (o : op) : Prop :=
  match o with
  | OPush _ => Z.of_nat (length labels) < 30
  | OPop | OUpdate _ => labels <> []
  | _ => True
  end.
Definition scopes_ok (ops : list op) : Prop :=
  forall before o after, ops = before ++ o :: after -> op_ok (labels_after before) o.
(* profiling is started and finished alternately *)
Definition apply_control (b : bool) (o : op) : bool := match o with OStart => true | OFinish => false | _ => b end.
Definition profiling_after (ops : list op) : bool := fold_left apply_control ops false.
Definition control_ok (ops : list op) : Prop :=
  forall before o after, ops = before ++ o :: after ->
    match o with OStart => profiling_after before = false | OFinish => profiling_after before = true | _ => True end.
Definition no_control (ops : list op) : Prop := ~ In OStart ops /\ ~ In OFinish ops.
(* programs that keep to the rules of profiler.h 40-66 and 110-124 *)
Definition programs_ok (controller : Z) (programs : Z -> list op) : Prop :=
  (forall i, scopes_ok (programs i)) /\ control_ok (programs controller) /\
  (forall i, i <> controller -> no_control (programs i)).

(* a cannot go on before b does *)
Inductive waits (s : state) : actor -> actor -> Prop :=
  | waits_stack i o ops b : s_thread s i = mk_thread Ready (o :: ops) -> on_stack o = true ->
      k_lock (s_info s i) = Some b -> waits s (App i) b
  | waits_profiler i o ops b : s_thread s i = mk_thread Ready (o :: ops) -> on_stack o = false ->
      s_plock s = Some b -> waits s (App i) b
  | waits_exit i b : t_pc (s_thread s i) = XErase -> s_plock s = Some b -> waits s (App i) b
  | waits_join i : t_pc (s_thread s i) = Joining -> s_prof s <> PDone -> waits s (App i) Prof
  | waits_tick stacks b : s_prof s = PTick stacks -> s_plock s = Some b -> waits s Prof b
  | waits_sample t todo stacks b : s_prof s = PIter (t :: todo) stacks -> k_lock (s_info s t) = Some b -> waits s Prof b.
Definition finished (s : state) (a : actor) : Prop :=
  match a with App i => t_pc (s_thread s i) = Gone | Prof => s_prof s = PNone \/ s_prof s = PDone end.

(* two actors are about to access the same location, one of them writing *)
Definition race (d : bool) (s : state) (l : location) : Prop :=
  exists a b wa wb, a <> b /\ In (l, wa) (accesses s a) /\ In (l, wb) (accesses s b) /\ wa || wb = true /\
    step d s a <> None /\ step d s b <> None.

(* code with scoped labels: a block is a list of statements; Block l body is
   { ScopedProfilingLabel label(l); body }, and UpdateLabel n l calls Update(l) on
   the n-th enclosing label object, 0 being the innermost *)
Inductive stmt := Block (l : Z) (body : list stmt) | UpdateLabel (n : nat) (l : Z) | Do (o : op).
Fixpoint compile (s : stmt) : list op :=
  match s with
  | Block l body => OPush l :: flat_map compile body ++ [OPop]
  | UpdateLabel _ l => [OUpdate l]
  | Do o => [o]
  end.
(* nesting at most n; updates only inside a block, of the innermost label; Do for
   the other operations *)
Fixpoint well_scoped (n : nat) (inside : bool) (s : stmt) : Prop :=
  match s with
  | Block _ body => match n with O => False | S n' => (fix all l := match l with [] => True | x :: l' => well_scoped n' true x /\ all l' end) body end
  | UpdateLabel k _ => k = O /\ inside = true
  | Do o => on_stack o = false
  end.
(* the labels in scope after each operation of a statement, as its text suggests:
   Update changes the label of the object it is called on *)
Fixpoint set_nth (n : nat) (l : Z) (xs : list Z) : list Z :=
  match xs, n with [], _ => [] | _ :: r, O => l :: r | x :: r, S k => x :: set_nth k l r end.
Definition then_labels (labels : list Z) (shown : list (list Z)) : list Z := last shown labels.
Fixpoint intended (labels : list Z) (s : stmt) : list (list Z) :=
  match s with
  | Block l body =>
    let inner := fold_left (fun shown b => shown ++ intended (then_labels (labels ++ [l]) shown) b) body [] in
    (labels ++ [l]) :: inner ++ [removelast (then_labels (labels ++ [l]) inner)]
  | UpdateLabel n l => [rev (set_nth n l (rev labels))]
  | Do _ => [labels]
  end.
Definition intended_all (labels : list Z) (prog : list stmt) : list (list Z) :=
  fold_left (fun shown b => shown ++ intended (then_labels labels shown) b) prog [].
