(* Props_Profiler.v: property theorems C44, C45, C51, C52, about the profiler
   (ProfilerModel.v, ProfileTreeModel.v).  Runs are interleavings of any number of
   threads performing profiling operations and the profiler thread; labels_after,
   is_registered, samples, programs_ok, waits, race and intended are defined in
   ProfilerSpec.v, line_of in ProfileTreeSpec.v. *)
From Coq Require Import Relation_Operators Sorted.
From Verif Require Import Base ProfileTreeModel ProfileTreeSpec ProfileTreeProofs ProfilerModel ProfilerSpec ProfilerProofs3 ProfilerProofs4 ProfilerScopes ProfilerRefuted.

(* C44: a sample of a thread is exactly the labels in scope at that moment,
   whatever the thread does meanwhile *)
Theorem C44_sample_exact :
  forall d programs tr s, runs d programs tr s ->
  forall t1 i stack t2, tr = t1 ++ ESample i stack :: t2 -> stack = labels_after (ops_of i t1).
Proof. exact sample_exact. Qed.
Print Assumptions C44_sample_exact.
(* code with nested scopes at most 30 deep keeps to the rules of the stack, and the
   labels in scope are those of the enclosing blocks *)
Theorem C44_scopes :
  forall prog, Forall (well_scoped 30 false) prog ->
  scopes_ok (flat_map compile prog) /\
  length (intended_all [] prog) = length (flat_map compile prog) /\
  forall before o after, flat_map compile prog = before ++ o :: after ->
    nth_error (intended_all [] prog) (length before) = Some (labels_after (before ++ [o])).
Proof. exact scoped_programs. Qed.
Print Assumptions C44_scopes.
(* then no assertion of the stack or of Start/FinishProfiling fails *)
Theorem C44_no_abort :
  forall d programs controller tr s i, programs_ok controller programs -> runs d programs tr s -> fault s (App i) = false.
Proof. exact no_fault_app. Qed.
Print Assumptions C44_no_abort.
(* 31 nested labels abort the process *)
Theorem C44_deep_nesting_refuted :
  exists prog tr s, Forall (well_scoped 31 false) prog /\ runs false (program_of [] (flat_map compile prog)) tr s /\ fault s (App 1) = true.
Proof. exact deep_nesting. Qed.
Print Assumptions C44_deep_nesting_refuted.
(* Update called on a label object that is not the innermost changes the innermost
   label instead *)
Theorem C44_update_refuted :
  exists prog before o after, flat_map compile prog = before ++ o :: after /\ scopes_ok (flat_map compile prog) /\
  nth_error (intended_all [] prog) (length before) <> Some (labels_after (before ++ [o])).
Proof. exact update_other_label. Qed.
Print Assumptions C44_update_refuted.

(* C45: the profile has one line for every label path passed through, with the
   number of samples, and the lines of the samples ending there *)
Theorem C45_lines :
  forall stacks t, Z.of_nat (length stacks) < 2 ^ 64 -> ProfileTreeView stacks t ->
  t_weight t = Z.of_nat (length stacks) /\
  exists lines, PrintNode 0 t = map print_line lines /\ NoDup (map fst lines) /\ forall p w, In (p, w) lines <-> line_of stacks p w.
Proof. exact profile_lines. Qed.
Print Assumptions C45_lines.
Theorem C45_weights_conserved :
  forall stacks t n, Z.of_nat (length stacks) < 2 ^ 64 -> ProfileTreeView stacks t -> subtree n t ->
  t_children n <> [] -> fold_right Z.add 0 (map t_weight (t_children n)) = t_weight n.
Proof. exact weights_conserved. Qed.
Print Assumptions C45_weights_conserved.
Theorem C45_sorted :
  forall stacks t n, ProfileTreeView stacks t -> subtree n t ->
  StronglySorted (fun a b => t_weight a >= t_weight b) (t_children n).
Proof. exact siblings_sorted. Qed.
Print Assumptions C45_sorted.
Theorem C45_view_exists : forall stacks, exists t, ProfileTreeView stacks t.
Proof. exact view_exists. Qed.
Print Assumptions C45_view_exists.

(* C51: every tick samples every registered thread once, in order of address *)
Theorem C51_tick_complete :
  forall d programs tr s, runs d programs tr s ->
  forall t1 t2 t3, tr = t1 ++ ETick :: t2 ++ ETock :: t3 -> forallb (fun e => negb (tick_event e)) t2 = true ->
  StronglySorted Z.lt (sampled_threads t2) /\ forall i, In i (sampled_threads t2) <-> is_registered t1 i.
Proof. exact tick_samples. Qed.
Print Assumptions C51_tick_complete.
(* the report has every sample taken since StartProfiling, and no other *)
Theorem C51_report :
  forall d programs controller tr s, programs_ok controller programs -> runs d programs tr s ->
  forall t1 n stacks t2, tr = t1 ++ EReport n stacks :: t2 -> stacks = samples t1.
Proof. exact report_samples. Qed.
Print Assumptions C51_report.

(* C52: a thread that cannot go on waits, directly or not, for one that can *)
Theorem C52_no_deadlock :
  forall programs controller tr s a, programs_ok controller programs -> runs false programs tr s -> ~ finished s a ->
  exists b, clos_refl_trans _ (waits s) a b /\ step false s b <> None.
Proof. exact no_deadlock. Qed.
Print Assumptions C52_no_deadlock.
(* if a thread is taken off the set before its ThreadInfo is deleted, the profiler
   only reads live ThreadInfo objects *)
Theorem C52_exit_safe : forall programs tr s, runs false programs tr s -> fault s Prof = false.
Proof. exact no_fault_prof. Qed.
Print Assumptions C52_exit_safe.
(* the other order of the two destructors, which is equally allowed, is not safe *)
Theorem C52_exit_order_refuted :
  exists programs tr s, programs_ok 0 programs /\ runs true programs tr s /\ fault s Prof = true.
Proof. exact exit_use_after_free. Qed.
Print Assumptions C52_exit_order_refuted.
(* no data races on the label stacks, IsProfiling, and the set of threads before
   the report *)
Theorem C52_race_free :
  forall programs controller tr s l, programs_ok controller programs -> runs false programs tr s ->
  l <> LShouldFinish -> (forall stacks, l = LSet -> s_prof s <> PReport stacks) -> ~ race false s l.
Proof. exact race_free. Qed.
Print Assumptions C52_race_free.
Theorem C52_should_finish_race_refuted :
  exists programs tr s, programs_ok 0 programs /\ runs false programs tr s /\ race false s LShouldFinish.
Proof. exact should_finish_race. Qed.
Print Assumptions C52_should_finish_race_refuted.
Theorem C52_thread_count_race_refuted :
  exists programs tr s stacks, programs_ok 0 programs /\ runs false programs tr s /\ s_prof s = PReport stacks /\ race false s LSet.
Proof. exact thread_count_race. Qed.
Print Assumptions C52_thread_count_race_refuted.

(* Examples.  Thread 0 profiles itself and thread 1. *)
Definition ex_p0 := [ORegister; OPush 10; OStart; OPush 20; OPop; OFinish; OPop].
Definition ex_p1 := [ORegister; OPush 30; OUpdate 31; OPop].
Definition ex_sched :=
  repeat (App 0) (3 + 4 + 4) ++ repeat (App 1) 6 (* thread 1 is pushing its label *) ++
  repeat Prof 5 (* thread 0 sampled, thread 1 busy *) ++ repeat (App 0) 5 (* thread 0 pushes 20, starts to pop it *) ++
  [App 1] ++ repeat Prof 4 ++ repeat (App 0) 5 ++ [Prof; Prof; App 0; App 0].
Definition ex_trace := exec_trace false (program_of ex_p0 ex_p1) ex_sched.
Definition ex_state := exec_state false (program_of ex_p0 ex_p1) ex_sched.
Definition ex_before_tick := [EOp 0 ORegister; EOp 0 (OPush 10); EOp 0 OStart; EOp 1 ORegister].
Example ex_run : runs false (program_of ex_p0 ex_p1) ex_trace ex_state /\ programs_ok 0 (program_of ex_p0 ex_p1).
Proof.
  split; [apply exec_runs; vm_compute; reflexivity|]. apply program_of_ok; try reflexivity. split; cbn; intuition discriminate.
Qed.
Example ex_events : ex_trace =
  ex_before_tick ++ ETick :: [ESample 0 [10]; EOp 0 (OPush 20); EOp 1 (OPush 30); ESample 1 [30]] ++ ETock ::
  [EOp 0 OPop; EReport 2 [[10]; [30]]; EOp 0 OFinish].
Proof. vm_compute. reflexivity. Qed.
(* C44, C51: the two samples, the threads sampled and the report *)
Example ex_samples :
  [10] = labels_after (ops_of 0 (ex_before_tick ++ [ETick])) /\
  [30] = labels_after (ops_of 1 (ex_before_tick ++ [ETick; ESample 0 [10]; EOp 0 (OPush 20); EOp 1 (OPush 30)])) /\
  sampled_threads [ESample 0 [10]; EOp 0 (OPush 20); EOp 1 (OPush 30); ESample 1 [30]] = registered ex_before_tick.
Proof. vm_compute. auto. Qed.
Example ex_exact := C44_sample_exact _ _ _ _ (proj1 ex_run) (ex_before_tick ++ [ETick]) 0 [10] _ ex_events.
Example ex_report : forall t1 n stacks t2, ex_trace = t1 ++ EReport n stacks :: t2 -> stacks = samples t1 :=
  C51_report _ _ _ _ _ (proj2 ex_run) (proj1 ex_run).
(* scoped code: label 1 with two blocks inside, one updated *)
Definition ex_prog := [Block 1 [Block 2 [UpdateLabel 0 5]; Do ORegister; Block 3 [Block 4 []]]; Block 6 []].
Example ex_scopes : Forall (well_scoped 30 false) ex_prog /\
  intended_all [] ex_prog = [[1]; [1; 2]; [1; 5]; [1]; [1]; [1; 3]; [1; 3; 4]; [1; 3]; [1]; []; [6]; []].
Proof. split; [repeat constructor|reflexivity]. Qed.
(* C45: the profile of five samples *)
Definition ex_stacks := [[1; 2]; [1]; [3]; []; [1; 2; 4]].
Example ex_profile : exists t, ProfileTreeView ex_stacks t /\ t_weight t = 5 /\
  (forall p w, line_of ex_stacks p w -> In (print_line (p, w)) (PrintNode 0 t)) /\
  In (1, 3, Label 1) (PrintNode 0 t) /\ In (2, 2, Label 2) (PrintNode 0 t) /\ In (2, 1, Other) (PrintNode 0 t) /\ In (1, 1, OtherOutside) (PrintNode 0 t).
Proof.
  destruct (C45_view_exists ex_stacks) as [t V]. destruct (C45_lines ex_stacks t eq_refl V) as (W & lines & E & _ & L).
  assert (A : forall p w, line_of ex_stacks p w -> In (print_line (p, w)) (PrintNode 0 t)).
  { intros p w H. rewrite E. apply (in_map print_line), L, H. }
  exists t. split; [exact V|]. split; [exact W|]. split; [exact A|].
  split; [exact (A [Label 1] 3 (line_label ex_stacks [1] ltac:(discriminate) eq_refl))|].
  split; [exact (A [Label 1; Label 2] 2 (line_label ex_stacks [1; 2] ltac:(discriminate) eq_refl))|].
  split; [exact (A [Label 1; Other] 1 (line_other ex_stacks [1] ltac:(discriminate) eq_refl))|].
  exact (A [OtherOutside] 1 (line_outside ex_stacks eq_refl)).
Qed.
(* C52: while thread 1 holds its stack's lock, the profiler holding the profiler
   lock, and thread 0 waiting for that lock: the chain of waiting ends in thread 1 *)
Definition ex_wait_sched := repeat (App 1) 3 ++ repeat (App 0) 4 ++ [App 1; Prof; Prof].
Definition ex_wait_p := program_of [OStart; OFinish] [ORegister; OPush 30; OPop].
Definition ex_wait := exec_state false ex_wait_p ex_wait_sched.
Example ex_waiting : step false ex_wait (App 0) = None /\ step false ex_wait Prof = None /\ step false ex_wait (App 1) <> None /\
  waits ex_wait (App 0) Prof /\ waits ex_wait Prof (App 1).
Proof.
  split; [vm_compute; reflexivity|]. split; [vm_compute; reflexivity|]. split; [vm_compute; discriminate|]. split.
  - eapply waits_profiler; vm_compute; reflexivity.
  - eapply waits_sample; vm_compute; reflexivity.
Qed.
(* C52: thread 1 exits after being taken off the set; its ThreadInfo is deleted
   and the profiler's next tick samples nobody *)
Definition ex_exit_sched := repeat (App 1) 3 ++ repeat (App 0) 4 ++ repeat (App 1) 5 ++ repeat Prof 3.
Example ex_exit : exec_trace false (program_of [OStart; OFinish] [ORegister]) ex_exit_sched = [EOp 1 ORegister; EOp 0 OStart; EExit 1; ETick; ETock] /\
  k_alive (s_info (exec_state false (program_of [OStart; OFinish] [ORegister]) ex_exit_sched) 1) = false.
Proof. vm_compute. auto. Qed.
