From Coq Require Import List Arith Bool Lia Permutation.
Import ListNotations.
From Verif Require Import GemmContract GemmProofs4 PoolModel PoolSpec PoolProofs PoolProofs2 PoolProofs3 PoolProofs4.
Local Open Scope nat_scope.

Section Proofs.
Context {A : Type}.
Notation state := (@state A).
Notation program := (list (list (list A))).
Definition ok_program (p : program) : Prop := forall b, In b p -> b <> [].

Lemma exec_performed (p : program) spins s : (forall b, In b p -> b <> []) -> reachable spins p s ->
  performed p (s_returned s) (s_trace s).
Proof. intros H R. apply performed_ok. eapply reachable_inv; eauto. Qed.

Lemma exec_returned (p : program) spins s : (forall b, In b p -> b <> []) -> reachable spins p s -> s_pc s = MIdle ->
  execution (map assigned (firstn (s_returned s) p)) (s_trace s) /\
  forall i w, nth_error (s_workers s) i = Some w -> waiting w.
Proof.
  intros H R E. pose proof (reachable_inv _ _ _ H R) as I. split; [apply performed_idle; [exact I|rewrite E; reflexivity]|].
  intros i w Hn. destruct (tasks_idle _ _ _ _ I E Hn) as (T1 & T2 & _). unfold waiting. split; [exact T1|]. split; [exact T2|].
  destruct (iv_w _ _ I i w Hn) as [W R']. rewrite E in W, R'. destruct R' as [_ R']. unfold is_pending in R'. destruct W as (_ & _ & W). rewrite T1 in *.
  destruct (w_pc w); try contradiction; try discriminate; exact Logic.I.
Qed.

Lemma execution_permutation (p : program) tr : execution p tr -> Permutation tr (concat (concat p)).
Proof.
  intros H. induction H as [|ph phs t1 t2 Hi He IH]; [apply Permutation_refl|]. cbn. rewrite concat_app. apply Permutation_app; [|exact IH]. apply interleaving_perm. exact Hi.
Qed.
Lemma exec_once (p : program) spins s : (forall b, In b p -> b <> []) -> reachable spins p s -> s_pc s = MIdle ->
  Permutation (map snd (s_trace s)) (concat (concat (firstn (s_returned s) p))).
Proof. intros H R E. apply execution_permutation. apply untag. apply (exec_returned p spins s H R E). Qed.

Lemma no_failure (p : program) spins s : (forall b, In b p -> b <> []) -> reachable spins p s -> s_failed s = false.
Proof. intros H R. apply (iv_fail _ _ (reachable_inv _ _ _ H R)). Qed.
Lemma no_race (p : program) spins s i w : (forall b, In b p -> b <> []) -> reachable spins p s -> nth_error (s_workers s) i = Some w ->
  worker_uses w -> caller_uses s i -> False.
Proof.
  intros H R Hn Hw Hc. pose proof (reachable_inv _ _ _ H R) as I.
  assert (Hh : held (w_pc w) = true) by (unfold worker_uses in Hw; destruct (w_pc w); try contradiction; reflexivity).
  pose proof (exclusive _ _ _ _ I Hn Hh) as V. unfold caller_uses in Hc. destruct (s_pc s); try contradiction; destruct c; try contradiction; subst; cbn in V; rewrite Nat.eqb_refl in V; discriminate.
Qed.
Lemma shutdown (p : program) spins s : (forall b, In b p -> b <> []) -> reachable spins p s -> s_pc s = MEnd ->
  s_returned s = length p /\ execution (map assigned p) (s_trace s) /\
  forall i w, nth_error (s_workers s) i = Some w -> terminated w.
Proof.
  intros H R E. pose proof (reachable_inv _ _ _ H R) as I. pose proof (todo_end _ _ _ R) as T. rewrite E in T. pose proof (all_returned _ _ I E T) as L.
  split; [exact L|]. split; [|intros i w Hn; exact (done_end _ _ I E i w Hn)].
  pose proof (performed_idle _ _ I) as X. rewrite E in X. specialize (X eq_refl). rewrite L, firstn_all in X. exact X.
Qed.
Lemma no_deadlock (p : program) spins s : (forall b, In b p -> b <> []) -> reachable spins p s -> s_pc s <> MEnd ->
  exists l s', is_spurious l = false /\ step spins s l = Some s'.
Proof. intros H R E. eapply progress; eauto. eapply reachable_inv; eauto. Qed.
Lemma bounded (p : program) spins ls s : (forall b, In b p -> b <> []) -> run spins (init p) ls s ->
  length (filter (fun l => negb (is_spurious l)) ls) <= step_bound spins p + 4 * length (filter is_spurious ls).
Proof. intros H R. pose proof (run_bound spins p _ _ _ H (inv_init p) R) as X. rewrite cost_init in X. lia. Qed.
Lemma fair_terminates (p : program) spins sched : (forall b, In b p -> b <> []) -> fair sched ->
  exists n, s_pc (state_at spins (init p) sched n) = MEnd.
Proof. apply fair_end. Qed.
End Proofs.

Lemma sweep_fair : fair sweep.
Proof.
  assert (E : forall m r, r <= 2 * m -> sweep (m * m + r) = match r with O => LCaller | S i => LWorker i end).
  { intros m r Hr. unfold sweep. rewrite (Nat.sqrt_unique (m * m + r) m) by nia. replace (m * m + r - m * m) with r by lia. reflexivity. }
  split; [|split].
  - intros n. exists (n * n + 0). split; [nia|]. rewrite E by lia. reflexivity.
  - intros i n. exists ((n + i + 1) * (n + i + 1) + S i). split; [nia|]. rewrite E by lia. reflexivity.
  - exists 0. intros k i _. unfold sweep. destruct (k - _); discriminate.
Qed.
