(* ProfilerRefuted.v: runs of given schedules, and what does not hold of the
   profiler. *)
From Coq Require Import Relation_Operators.
From Verif Require Import Base ProfilerModel ProfilerSpec.

(* the run of a schedule *)
Fixpoint exec (d : bool) (tr : list event) (s : state) (sched : list actor) : option (list event * state) :=
  match sched with
  | [] => Some (tr, s)
  | a :: r =>
    match step d s a with
    | Some (Some e, s') => exec d (tr ++ [e]) s' r
    | Some (None, s') => exec d tr s' r
    | None => None
    end
  end.
Definition exec_trace d programs sched := match exec d [] (init programs) sched with Some (tr, _) => tr | None => [] end.
Definition exec_state d programs sched := match exec d [] (init programs) sched with Some (_, s) => s | None => init programs end.
Lemma exec_runs0 d programs sched : forall tr s tr' s', runs d programs tr s -> exec d tr s sched = Some (tr', s') -> runs d programs tr' s'.
Proof.
  induction sched as [|a r IH]; intros tr s tr' s' R E; cbn in E; [congruence|]. destruct (step d s a) as [[[e|] s1]|] eqn:H; [| |discriminate].
  - exact (IH _ _ _ _ (runs_event _ _ _ _ _ _ _ R H) E).
  - exact (IH _ _ _ _ (runs_quiet _ _ _ _ _ _ R H) E).
Qed.
Lemma exec_runs d programs sched : (match exec d [] (init programs) sched with Some _ => true | None => false end) = true ->
  runs d programs (exec_trace d programs sched) (exec_state d programs sched).
Proof.
  unfold exec_trace, exec_state. destruct (exec d [] (init programs) sched) as [[tr s]|] eqn:E; [|discriminate]. intros _.
  exact (exec_runs0 _ _ _ _ _ _ _ (runs_init _ _) E).
Qed.

(* programs for the examples: thread 0 controls the profiler *)
Definition program_of (p0 p1 : list op) : Z -> list op := fun i => if i =? 0 then p0 else if i =? 1 then p1 else [].
Fixpoint scopes_okb (labels : list Z) (ops : list op) : bool :=
  match ops with
  | [] => true
  | o :: r => match o with OPush _ => Z.of_nat (length labels) <? 30 | OPop | OUpdate _ => negb (Z.of_nat (length labels) =? 0) | _ => true end && scopes_okb (apply_op labels o) r
  end.
Fixpoint control_okb (b : bool) (ops : list op) : bool :=
  match ops with [] => true | o :: r => match o with OStart => negb b | OFinish => b | _ => true end && control_okb (apply_control b o) r end.
Lemma scopes_okb_ok ops : forall labels, scopes_okb labels ops = true -> forall before o after, ops = before ++ o :: after -> op_ok (fold_left apply_op before labels) o.
Proof.
  induction ops as [|x ops IH]; intros labels H [|y before] o after E; try discriminate; cbn in E; injection E as -> ->; cbn in H; apply andb_prop in H; destruct H as [H1 H2].
  - cbn. destruct o; cbn; auto; try (destruct labels; [discriminate|discriminate]). apply Z.ltb_lt, H1.
  - exact (IH _ H2 _ _ _ eq_refl).
Qed.
Lemma control_okb_ok ops : forall b, control_okb b ops = true -> forall before o after, ops = before ++ o :: after ->
  match o with OStart => fold_left apply_control before b = false | OFinish => fold_left apply_control before b = true | _ => True end.
Proof.
  induction ops as [|x ops IH]; intros b H [|y before] o after E; try discriminate; cbn in E; injection E as -> ->; cbn in H; apply andb_prop in H; destruct H as [H1 H2].
  - cbn. destruct o; cbn; auto. destruct b; [discriminate|reflexivity].
  - exact (IH _ H2 _ _ _ eq_refl).
Qed.
Lemma program_of_ok p0 p1 : scopes_okb [] p0 = true -> scopes_okb [] p1 = true -> control_okb false p0 = true -> no_control p1 ->
  programs_ok 0 (program_of p0 p1).
Proof.
  intros H0 H1 C N. split; [|split].
  - intros i. unfold program_of. destruct (i =? 0); [exact (scopes_okb_ok _ _ H0)|]. destruct (i =? 1); [exact (scopes_okb_ok _ _ H1)|]. intros [|? ?] ? ? E; discriminate.
  - exact (control_okb_ok _ _ C).
  - intros i Hi. unfold program_of. destruct (Z.eqb_spec i 0); [congruence|]. destruct (i =? 1); [exact N|]. split; intros [].
Qed.

(* if DeleteThreadInfo runs before ThreadExitCallback, the profiler reads the
   stack of a deleted ThreadInfo *)
Theorem exit_use_after_free : exists programs tr s, programs_ok 0 programs /\ runs true programs tr s /\ fault s Prof = true.
Proof.
  set (p := program_of [OStart; OFinish] [ORegister]).
  set (sched := repeat (App 1) 3 ++ repeat (App 0) 4 ++ repeat (App 1) 2 ++ repeat Prof 2).
  exists p, (exec_trace true p sched), (exec_state true p sched).
  split; [apply program_of_ok; try reflexivity; split; cbn; intuition discriminate|]. split; [apply exec_runs; vm_compute; reflexivity|vm_compute; reflexivity].
Qed.
(* the profiler thread reads ProfilerThreadShouldFinish without the lock *)
Theorem should_finish_race : exists programs tr s, programs_ok 0 programs /\ runs false programs tr s /\ race false s LShouldFinish.
Proof.
  set (p := program_of [OStart; OFinish] []). set (sched := repeat (App 0) 5).
  exists p, (exec_trace false p sched), (exec_state false p sched).
  split; [apply program_of_ok; try reflexivity; split; cbn; intuition discriminate|]. split; [apply exec_runs; vm_compute; reflexivity|].
  exists (App 0), Prof, true, false. split; [discriminate|]. split; [vm_compute; auto|]. split; [vm_compute; auto|]. split; [reflexivity|]. split; vm_compute; discriminate.
Qed.
(* Print reads ThreadsUnderProfiling().size() without the lock *)
Theorem thread_count_race : exists programs tr s stacks, programs_ok 0 programs /\ runs false programs tr s /\ s_prof s = PReport stacks /\ race false s LSet.
Proof.
  set (p := program_of [OStart; OFinish] [ORegister]). set (sched := repeat (App 0) 7 ++ [Prof] ++ [App 1]).
  exists p, (exec_trace false p sched), (exec_state false p sched), [].
  split; [apply program_of_ok; try reflexivity; split; cbn; intuition discriminate|]. split; [apply exec_runs; vm_compute; reflexivity|].
  split; [vm_compute; reflexivity|].
  exists (App 1), Prof, true, false. split; [discriminate|]. split; [vm_compute; auto|]. split; [vm_compute; auto|]. split; [reflexivity|]. split; vm_compute; discriminate.
Qed.
(* Update changes the innermost label, whichever label object it is called on *)
Theorem update_other_label : exists prog before o after, flat_map compile prog = before ++ o :: after /\ scopes_ok (flat_map compile prog) /\
  nth_error (intended_all [] prog) (length before) <> Some (labels_after (before ++ [o])).
Proof.
  exists [Block 1 [Block 2 [UpdateLabel 1 3]]], [OPush 1; OPush 2], (OUpdate 3), [OPop; OPop].
  split; [reflexivity|]. split; [exact (scopes_okb_ok [OPush 1; OPush 2; OUpdate 3; OPop; OPop] [] eq_refl)|]. vm_compute. discriminate.
Qed.
(* nesting more than 30 labels aborts the process *)
Fixpoint nest (n : nat) : list stmt := match n with O => [] | S n' => [Block (Z.of_nat n) (nest n')] end.
Theorem deep_nesting : exists prog tr s, Forall (well_scoped 31 false) prog /\ runs false (program_of [] (flat_map compile prog)) tr s /\ fault s (App 1) = true.
Proof.
  set (p := program_of [] (flat_map compile (nest 31))). set (sched := repeat (App 1) (30 * 4 + 1)).
  exists (nest 31), (exec_trace false p sched), (exec_state false p sched).
  split; [repeat constructor|]. split; [apply exec_runs; vm_compute; reflexivity|vm_compute; reflexivity].
Qed.
