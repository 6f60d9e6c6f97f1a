(* ProfilerProofs3.v: the invariants hold in every run; what the profiler samples,
   no failing assertions, no deadlock, no data races. *)
From Coq Require Import Relation_Operators Sorted.
From Verif Require Import Base BaseLemmas ProfilerModel ProfilerSpec ProfilerProofs ProfilerProofs2.

(* registered threads are alive, if ThreadExitCallback runs before DeleteThreadInfo *)
Definition exiting (p : pc) : bool := match p with XUnlocking | XDelete | Gone => true | _ => false end.
Definition alive_ok (s : state) : Prop := forall i, In i (s_set s) -> k_alive (s_info s i) = true /\ exiting (t_pc (s_thread s i)) = false.
Lemma insert_In i j l : In j (insert i l) <-> j = i \/ In j l.
Proof.
  induction l as [|x l IH]; cbn [insert In]; [intuition congruence|]. destruct (i <? x); [cbn [In]; intuition congruence|].
  destruct (Z.eqb_spec i x) as [-> |]; cbn [In]; [intuition congruence|]. rewrite IH. tauto.
Qed.
Lemma erase_In i j l : In j (erase i l) <-> In j l /\ j <> i.
Proof. unfold erase. rewrite filter_In. destruct (Z.eqb_spec j i); cbn; intuition congruence. Qed.
Lemma alive_step s a e s' : case false s a e s' -> alive_ok s -> alive_ok s'.
Proof.
  intros C A. destruct C; intros j Hj; simpl_state.
  all: try (apply insert_In in Hj).
  all: try (apply erase_In in Hj).
  all: unfold upd.
  all: try match goal with E : s_thread _ ?i = _ |- _ => pose proof (A i) as Ai; rewrite E in Ai; cbn [t_pc] in Ai; destruct (Z.eqb_spec j i) as [-> | N]; cbn [k_alive t_pc t_ops exiting] end.
  all: try (split; [reflexivity|reflexivity]).
  all: try (apply A; tauto).
  all: try (destruct (Ai Hj); split; congruence).
  all: try (exfalso; tauto).
  - destruct (Ai Hj) as [E _]. rewrite E. cbn. auto.
  - exfalso. destruct (Ai Hj). discriminate.
  - exfalso. destruct (Ai Hj). discriminate.
  - destruct (Z.eqb_spec j t) as [-> | N]; cbn [k_alive]; apply A, Hj.
  - destruct (Z.eqb_spec j t) as [-> | N]; cbn [k_alive]; apply A, Hj.
Qed.

Record invariant (programs : Z -> list op) (tr : list event) (s : state) : Prop := {
  v_locks : locks s; v_stacks : stacks_ok programs tr s; v_set : s_set s = expected_set tr s; v_ticks : ticks_ok tr s }.
Lemma invariant_step programs d tr s a e s' : invariant programs tr s -> step d s a = Some (e, s') -> invariant programs (tr ++ events e) s'.
Proof.
  intros [L K E T] H. apply step_case in H. constructor.
  - exact (locks_step _ _ _ _ _ H L).
  - exact (stacks_step _ _ _ _ _ _ _ H K L).
  - exact (set_step _ _ _ _ _ _ H L E).
  - exact (ticks_step _ _ _ _ _ _ _ H L K E T).
Qed.
Lemma invariant_init programs : invariant programs [] (init programs).
Proof. constructor; [apply locks_init|apply stacks_init|reflexivity|exact I]. Qed.
(* runs, with the event of a step as a list *)
Lemma runs_ind2 d programs (P : list event -> state -> Prop) : P [] (init programs) ->
  (forall tr s a e s', runs d programs tr s -> P tr s -> step d s a = Some (e, s') -> P (tr ++ events e) s') ->
  forall tr s, runs d programs tr s -> P tr s.
Proof.
  intros P0 PS tr s R. induction R as [|tr s a s' R IH H|tr s a e s' R IH H]; [exact P0| |].
  - rewrite <- (app_nil_r tr). exact (PS tr s a None s' R IH H).
  - exact (PS tr s a (Some e) s' R IH H).
Qed.
Lemma runs_invariant d programs tr s : runs d programs tr s -> invariant programs tr s.
Proof. revert tr s. apply runs_ind2; [apply invariant_init|]. intros tr s a e s' _ I H. exact (invariant_step _ _ _ _ _ _ _ I H). Qed.
Lemma runs_control d programs ctl tr s : programs_ok ctl programs -> runs d programs tr s -> control_state ctl tr s.
Proof.
  intros P. revert tr s. apply runs_ind2; [split; reflexivity|]. intros tr s a e s' R C H. destruct (runs_invariant _ _ _ _ R) as [L K _ _].
  apply step_case in H. exact (control_step _ _ _ _ _ _ _ _ P H L K C).
Qed.
Lemma runs_alive programs tr s : runs false programs tr s -> alive_ok s.
Proof.
  revert tr s. apply runs_ind2; [intros i []|]. intros tr s a e s' _ A H. apply step_case in H. exact (alive_step _ _ _ _ H A).
Qed.
Lemma runs_split d programs tr s : runs d programs tr s -> forall t1 e t2, tr = t1 ++ e :: t2 ->
  exists s0 a s1, runs d programs t1 s0 /\ step d s0 a = Some (Some e, s1).
Proof.
  intros R. induction R as [|tr s a s' R IH H|tr s a e' s' R IH H]; intros t1 e t2 E.
  - destruct t1; discriminate.
  - exact (IH _ _ _ E).
  - destruct t2 as [|x t2 _] using rev_ind.
    + apply app_inj_tail in E. destruct E as [-> ->]. eauto.
    + rewrite app_comm_cons, app_assoc in E. apply app_inj_tail in E. destruct E as [-> _]. exact (IH _ _ _ eq_refl).
Qed.

(* T1: a sample of a thread is exactly the labels in scope *)
Theorem sample_exact d programs tr s : runs d programs tr s -> forall t1 i stack t2, tr = t1 ++ ESample i stack :: t2 ->
  stack = labels_after (ops_of i t1).
Proof.
  intros R t1 i stack t2 E. destruct (runs_split _ _ _ _ R _ _ _ E) as (s0 & a & s1 & R0 & H). apply runs_invariant in R0. destruct R0 as [L K _ T].
  apply step_case in H. inversion H; subst. unfold ticks_ok in T. match goal with Hp : s_prof s0 = _ |- _ => rewrite Hp in T; rename Hp into P end.
  destruct T as (_ & T2 & T3). rewrite T2. rewrite firstn_all2 by (rewrite content_length; lia). rewrite (k_content _ _ _ K i).
  assert (N : holds_stack (s_thread s0 i) = false).
  { destruct (holds_stack (s_thread s0 i)) eqn:N; [|reflexivity]. apply (l_excl _ L) in N. rewrite P in N. cbn in N. lia. }
  unfold holds_stack in N. unfold expected. destruct (t_pc (s_thread s0 i)); try reflexivity. destruct (t_ops (s_thread s0 i)) as [|[] ?]; try reflexivity; discriminate.
Qed.

(* T3: every tick samples every registered thread once *)
Lemma last_tick a b c e : a ++ ETick :: b = c ++ ETick :: e -> forallb (fun e => negb (tick_event e)) b = true ->
  forallb (fun e => negb (tick_event e)) e = true -> a = c /\ b = e.
Proof.
  revert c. induction a as [|x a IH]; intros [|y c] E Hb He; cbn in E.
  1: injection E as ->; auto.
  all: injection E as E1 E2.
  - rewrite E2, forallb_app in Hb. cbn in Hb. rewrite andb_false_r in Hb. discriminate.
  - rewrite <- E2, forallb_app in He. cbn in He. rewrite andb_false_r in He. discriminate.
  - destruct (IH _ E2 Hb He) as [-> ->]. subst. auto.
Qed.
Theorem tick_complete d programs tr s : runs d programs tr s -> forall t1 t2 t3, tr = t1 ++ ETick :: t2 ++ ETock :: t3 ->
  forallb (fun e => negb (tick_event e)) t2 = true -> sampled_threads t2 = registered t1.
Proof.
  intros R t1 t2 t3 E N. rewrite app_comm_cons, app_assoc in E. destruct (runs_split _ _ _ _ R _ _ _ E) as (s0 & a & s1 & R0 & H).
  apply runs_invariant in R0. destruct R0 as [L K _ T]. apply step_case in H. inversion H; subst. unfold ticks_ok in T.
  match goal with Hp : s_prof s0 = _ |- _ => rewrite Hp in T end. destruct T as (u1 & u2 & E1 & E2 & E3 & _).
  destruct (last_tick _ _ _ _ E1 N E2) as [-> ->]. rewrite app_nil_r in E3. auto.
Qed.
(* the registered threads: no thread twice *)
Lemma insert_sorted i l : StronglySorted Z.lt l -> StronglySorted Z.lt (insert i l).
Proof.
  induction 1 as [|x l S IH F]; cbn [insert]; [repeat constructor|]. destruct (Z.ltb_spec i x).
  - constructor; [constructor; assumption|]. constructor; [assumption|]. rewrite Forall_forall in *. intros y Hy. specialize (F y Hy). lia.
  - destruct (Z.eqb_spec i x); [constructor; assumption|]. constructor; [exact IH|]. rewrite Forall_forall in *. intros y Hy.
    apply insert_In in Hy. destruct Hy as [-> |Hy]; [lia|auto].
Qed.
Lemma erase_sorted i l : StronglySorted Z.lt l -> StronglySorted Z.lt (erase i l).
Proof.
  induction 1 as [|x l S IH F]; cbn; [constructor|]. fold (erase i l). destruct (x =? i); cbn; [exact IH|]. constructor; [exact IH|].
  rewrite Forall_forall in *. intros y Hy. apply erase_In in Hy. apply F, Hy.
Qed.
Theorem registered_sorted tr : StronglySorted Z.lt (registered tr).
Proof.
  induction tr as [|e tr IH] using rev_ind; [constructor|]. rewrite registered_snoc. destruct e as [i []|i| | | |]; cbn; try exact IH.
  - apply insert_sorted, IH.
  - apply erase_sorted, IH.
Qed.
Lemma registered_In tr i : In i (registered tr) <-> is_registered tr i.
Proof.
  induction tr as [|e tr IH] using rev_ind.
  - split; [intros []|intros ([|? ?] & ? & E & _); discriminate].
  - assert (Snoc : is_registered (tr ++ [e]) i <-> e = EOp i ORegister \/ (is_registered tr i /\ e <> EExit i)).
    { split.
      - intros (b & a & E & N). destruct a as [|x a _] using rev_ind.
        + left. apply app_inj_tail in E. destruct E as [_ ->]. reflexivity.
        + right. rewrite app_comm_cons, app_assoc in E. apply app_inj_tail in E. destruct E as [-> ->].
          split; [exists b, a; split; [reflexivity|]; intros F; apply N, in_or_app; auto|]. intros ->. apply N, in_or_app. right. left. reflexivity.
      - intros [-> | [(b & a & -> & N) Ne]].
        + exists tr, []. split; [reflexivity|intros []].
        + exists b, (a ++ [e]). split; [rewrite <- app_assoc; reflexivity|]. intros F. apply in_app_or in F. destruct F as [F|[F|[]]]; [auto|congruence]. }
    rewrite Snoc, registered_snoc, <- IH. destruct e as [j []|j| | | |]; cbn [apply_registration]; try (intuition congruence).
    + rewrite insert_In. intuition congruence.
    + rewrite erase_In. intuition congruence.
Qed.
Theorem tick_samples d programs tr s : runs d programs tr s -> forall t1 t2 t3, tr = t1 ++ ETick :: t2 ++ ETock :: t3 ->
  forallb (fun e => negb (tick_event e)) t2 = true ->
  StronglySorted Z.lt (sampled_threads t2) /\ forall i, In i (sampled_threads t2) <-> is_registered t1 i.
Proof.
  intros R t1 t2 t3 E N. rewrite (tick_complete _ _ _ _ R t1 t2 t3 E N). split; [apply registered_sorted|]. intros i. apply registered_In.
Qed.

(* T4: the report has every sample since profiling was started *)
Theorem report_samples d programs ctl tr s : programs_ok ctl programs -> runs d programs tr s ->
  forall t1 n stacks t2, tr = t1 ++ EReport n stacks :: t2 -> stacks = samples t1.
Proof.
  intros P R t1 n stacks t2 E. destruct (runs_split _ _ _ _ R _ _ _ E) as (s0 & a & s1 & R0 & H).
  pose proof (runs_control _ _ _ _ _ P R0) as C. apply step_case in H. inversion H; subst.
  match goal with Hp : s_prof s0 = _ |- _ => rename Hp into Q end. unfold control_state in C. rewrite Q in C. cbn in C.
  assert (D : (s_is_prof s0 = profiling_after (ops_of ctl t1) /\ if profiling_after (ops_of ctl t1) then s_should s0 = false /\ false = true /\ (forall l, Some stacks = Some l -> l = samples t1)
    else PReport stacks = PNone) -> False).
  { intros [_ D]. destruct (profiling_after (ops_of ctl t1)); [destruct D as (_ & D & _)|]; discriminate. }
  destruct (t_pc (s_thread s0 ctl)); try (exfalso; exact (D C)); try (destruct (t_ops (s_thread s0 ctl)) as [|[] ?]); try (exfalso; exact (D C));
    try (destruct C as (_ & C); discriminate); try (destruct C as (_ & _ & [C | C]); discriminate);
    destruct C as (_ & _ & _ & C); apply C; reflexivity.
Qed.

(* T2: no assertion fails, and no deleted ThreadInfo is used *)
Lemma tick_in_set tr s todo t : tick_state tr s todo -> In t todo -> In t (s_set s).
Proof. intros (t1 & t2 & _ & _ & E1 & E2) H. rewrite E2, E1. apply in_or_app. auto. Qed.
Lemma prof_alive tr s t : ticks_ok tr s -> alive_ok s ->
  match s_prof s with PIter (t' :: _) _ => t' = t | PCopy t' _ _ _ => t' = t | _ => False end -> In t (s_set s).
Proof.
  intros T A H. unfold ticks_ok in T. destruct (s_prof s) as [| | |[|t' todo] ?|t' todo ? ?| |]; try contradiction; subst t'.
  - apply (tick_in_set _ _ _ _ T). left. reflexivity.
  - apply (tick_in_set _ _ _ _ (proj1 T)). left. reflexivity.
Qed.
Theorem no_fault_prof programs tr s : runs false programs tr s -> fault s Prof = false.
Proof.
  intros R. pose proof (runs_alive _ _ _ R) as A. destruct (runs_invariant _ _ _ _ R) as [L K _ T]. unfold fault.
  pose proof (fun t => prof_alive tr s t T A) as Q.
  destruct (s_prof s) as [| | |[|t todo] ?|t todo ? ?| |]; try reflexivity; rewrite (proj1 (A t (Q t eq_refl))); reflexivity.
Qed.
Theorem no_fault_app d programs ctl tr s i : programs_ok ctl programs -> runs d programs tr s -> fault s (App i) = false.
Proof.
  intros P R. pose proof (runs_control _ _ _ _ _ P R) as C. destruct (runs_invariant _ _ _ _ R) as [L K _ _]. destruct P as (Psc & Pc & Pn).
  unfold fault. destruct (s_thread s i) as [p ops] eqn:E. cbn [t_pc t_ops]. destruct p; try reflexivity. destruct ops as [|o ops]; [reflexivity|].
  pose proof (k_prog _ _ _ K i) as Pi. rewrite E in Pi. cbn [t_ops] in Pi. pose proof (Psc i _ _ _ Pi) as Oi.
  pose proof (k_content _ _ _ K i) as Ci. rewrite E in Ci. cbn in Ci. pose proof (k_pos _ _ _ K i) as Zi.
  pose proof (content_length (s_info s i)) as Li. rewrite Ci in Li.
  assert (Oth : o = OStart \/ o = OFinish -> i = ctl).
  { intros H. destruct (Z.eq_dec i ctl) as [|N]; [assumption|]. exfalso. destruct (Pn i N) as [A B]. rewrite Pi in A, B.
    destruct H as [-> | ->]; [apply A|apply B]; apply in_or_app; right; left; reflexivity. }
  destruct o; cbn [op_ok] in Oi; unfold kMaxSize; try reflexivity.
  - lia.
  - destruct (labels_after (ops_of i tr)); [congruence|]. cbn in Li. lia.
  - destruct (labels_after (ops_of i tr)); [congruence|]. cbn in Li. lia.
  - rewrite (Oth (or_introl eq_refl)) in *. unfold control_state in C. rewrite E in C. cbn in C. rewrite (proj1 C). exact (Pc _ _ _ Pi).
  - rewrite (Oth (or_intror eq_refl)) in *. unfold control_state in C. rewrite E in C. cbn in C. rewrite (proj1 C).
    rewrite (Pc _ _ _ Pi : profiling_after _ = true). reflexivity.
Qed.
Theorem no_fault programs ctl tr s a : programs_ok ctl programs -> runs false programs tr s -> fault s a = false.
Proof. intros P R. destruct a; [exact (no_fault_app _ _ _ _ _ _ P R)|exact (no_fault_prof _ _ _ R)]. Qed.
