(* ProfilerProofs4.v: no deadlock, no data races, scoped labels. *)
From Coq Require Import Relation_Operators Sorted.
From Verif Require Import Base BaseLemmas ProfilerModel ProfilerSpec ProfilerProofs ProfilerProofs2 ProfilerProofs3.

(* a thread holding a lock goes on *)
Lemma holder_steps d s i : locks s -> fault s (App i) = false ->
  holds_stack (s_thread s i) = true \/ holds_p (s_thread s i) = true -> step d s (App i) <> None.
Proof.
  intros L F H. pose proof (l_wf _ L i) as W. unfold step. rewrite F. unfold step_app. destruct (s_thread s i) as [p ops].
  unfold holds_stack, holds_p, wf in *. cbn [t_pc t_ops] in *.
  destruct p, ops as [|[] ops]; cbn in *; try discriminate; try contradiction; destruct H; discriminate.
Qed.
Lemma prof_holder d s : locks s -> fault s Prof = false -> (forall i, fault s (App i) = false) -> prof_p (s_prof s) = true ->
  exists b, clos_refl_trans _ (waits s) Prof b /\ step d s b <> None.
Proof.
  intros L F FA H. destruct (s_prof s) as [| | |[|t todo] stacks|t todo dst stacks| |] eqn:E; try discriminate.
  - exists Prof. split; [apply rt_refl|]. unfold step. rewrite F. unfold step_prof. rewrite E. discriminate.
  - pose proof (l_stack _ L t) as S. rewrite E in S. cbn [prof_stack] in S. destruct (holds_stack (s_thread s t)) eqn:Ht.
    + exists (App t). split; [apply rt_step; eapply waits_sample; eassumption|]. apply holder_steps; auto.
    + exists Prof. split; [apply rt_refl|]. unfold step. rewrite F. unfold step_prof. rewrite E, S. discriminate.
  - exists Prof. split; [apply rt_refl|]. unfold step. rewrite F. unfold step_prof. rewrite E. destruct (_ <? _); discriminate.
Qed.
Lemma plock_holder d s b : locks s -> (forall a, fault s a = false) -> s_plock s = Some b ->
  exists c, clos_refl_trans _ (waits s) b c /\ step d s c <> None.
Proof.
  intros L F H. pose proof (l_owner _ L b H) as O. destruct b as [j|].
  - exists (App j). split; [apply rt_refl|]. apply holder_steps; auto.
  - apply prof_holder; auto.
Qed.
Lemma prof_goes d s : locks s -> (forall a, fault s a = false) -> ~ finished s Prof ->
  exists b, clos_refl_trans _ (waits s) Prof b /\ step d s b <> None.
Proof.
  intros L F H. destruct (prof_p (s_prof s)) eqn:Q; [apply prof_holder; auto|].
  destruct (s_prof s) as [|stacks|stacks| | |stacks|] eqn:E; try discriminate; try (exfalso; apply H; cbn; rewrite E; auto; fail).
  - exists Prof. split; [apply rt_refl|]. unfold step. rewrite F. unfold step_prof. rewrite E. discriminate.
  - destruct (s_plock s) as [b|] eqn:P.
    + destruct (plock_holder d s b L F P) as (c & R & S). exists c. split; [|exact S]. eapply rt_trans; [apply rt_step; eapply waits_tick; eassumption|exact R].
    + exists Prof. split; [apply rt_refl|]. unfold step. rewrite F. unfold step_prof. rewrite E, P. discriminate.
  - exists Prof. split; [apply rt_refl|]. unfold step. rewrite F. unfold step_prof. rewrite E. discriminate.
Qed.
Theorem no_deadlock programs ctl tr s a : programs_ok ctl programs -> runs false programs tr s -> ~ finished s a ->
  exists b, clos_refl_trans _ (waits s) a b /\ step false s b <> None.
Proof.
  intros P R NF. pose proof (fun a => no_fault programs ctl tr s a P R) as F. pose proof (runs_control _ _ _ _ _ P R) as C.
  destruct (runs_invariant _ _ _ _ R) as [L K _ _]. destruct a as [i|]; [|apply prof_goes; auto].
  pose proof (l_wf _ L i) as W. destruct (s_thread s i) as [p ops] eqn:E. unfold wf in W. cbn [t_pc t_ops] in W.
  assert (Self : step false s (App i) <> None -> exists b, clos_refl_trans _ (waits s) (App i) b /\ step false s b <> None).
  { intros S. exists (App i). split; [apply rt_refl|exact S]. }
  assert (Lk : s_plock s <> None -> (forall b, s_plock s = Some b -> waits s (App i) b) -> exists b, clos_refl_trans _ (waits s) (App i) b /\ step false s b <> None).
  { intros N Wt. destruct (s_plock s) as [b|] eqn:Q; [|congruence]. destruct (plock_holder false s b L F Q) as (c & R1 & S).
    exists c. split; [|exact S]. eapply rt_trans; [apply rt_step, Wt; reflexivity|exact R1]. }
  destruct p.
  - (* Ready *) destruct ops as [|o ops].
    + apply Self. unfold step. rewrite F. unfold step_app. rewrite E. cbn. discriminate.
    + destruct (on_stack o) eqn:Os.
      * pose proof (l_stack _ L i) as S. rewrite E in S. unfold holds_stack in S. cbn in S. destruct (prof_stack (s_prof s) i) eqn:Q.
        -- exists Prof. split; [apply rt_step; eapply waits_stack; eassumption|]. unfold step. rewrite F. unfold step_prof.
           destruct (s_prof s); try discriminate. destruct (_ <? _); discriminate.
        -- apply Self. unfold step. rewrite F. unfold step_app. rewrite E. cbn [t_pc t_ops]. rewrite Os, S. discriminate.
      * destruct (s_plock s) as [b|] eqn:Q; [apply Lk; [discriminate|]; intros b' Hb; eapply waits_profiler; [eassumption|assumption|congruence]|].
        apply Self. unfold step. rewrite F. unfold step_app. rewrite E. cbn [t_pc t_ops]. rewrite Os, Q. discriminate.
  - apply Self, holder_steps; auto. rewrite E. unfold holds_stack, holds_p. cbn. destruct ops as [|o ops]; [congruence|]. destruct (on_stack o); auto.
  - apply Self, holder_steps; auto. rewrite E. unfold holds_stack, holds_p. cbn. destruct ops as [|o ops]; [contradiction|]. destruct (on_stack o); auto.
  - apply Self, holder_steps; auto. rewrite E. unfold holds_stack, holds_p. cbn. destruct ops as [|o ops]; [congruence|]. destruct (on_stack o); auto.
  - (* Joining *) destruct (s_prof s) eqn:Q.
    2-6: destruct (prof_goes false s L F ltac:(cbn; rewrite Q; intuition discriminate)) as (c & R1 & S); exists c; split; [|exact S];
      eapply rt_trans; [apply rt_step, waits_join; [rewrite E; reflexivity|rewrite Q; discriminate]|exact R1].
    + exfalso. assert (i = ctl) as ->.
      { destruct (Z.eq_dec i ctl) as [|N]; [assumption|]. destruct P as (_ & _ & Pn). destruct (Pn i N) as [_ B].
        rewrite (k_prog _ _ _ K i), E in B. destruct ops as [|[] ops]; try contradiction. exfalso. apply B, in_or_app. right. left. reflexivity. }
      unfold control_state in C. rewrite E in C. cbn in C. tauto.
    + apply Self. unfold step. rewrite F. unfold step_app. rewrite E, Q. destruct ops as [|[] ops]; discriminate.
  - apply Self. unfold step. rewrite F. unfold step_app. rewrite E. destruct ops as [|[] ops]; discriminate.
  - destruct (s_plock s) as [b|] eqn:Q; [apply Lk; [discriminate|]; intros b' Hb; apply waits_exit; [rewrite E; reflexivity|congruence]|].
    apply Self. unfold step. rewrite F. unfold step_app. rewrite E, Q. destruct ops as [|[] ops]; discriminate.
  - apply Self, holder_steps; auto. rewrite E. unfold holds_stack, holds_p. cbn. destruct ops; auto.
  - apply Self, holder_steps; auto. rewrite E. unfold holds_stack, holds_p. cbn. destruct ops; auto.
  - apply Self. unfold step. rewrite F. unfold step_app. rewrite E. destruct ops as [|[] ops]; discriminate.
  - exfalso. apply NF. cbn. rewrite E. reflexivity.
Qed.

(* the accesses and the locks *)
Theorem race_free programs ctl tr s l : programs_ok ctl programs -> runs false programs tr s ->
  l <> LShouldFinish -> (forall stacks, l = LSet -> s_prof s <> PReport stacks) -> ~ race false s l.
Proof.
  intros P R N1 N2 (a & b & wa & wb & Nab & Ha & Hb & Hw & _). pose proof (runs_alive _ _ _ R) as A. destruct (runs_invariant _ _ _ _ R) as [L K _ T].
  destruct P as (_ & _ & Pn).
  assert (Ctl : forall i o ops, t_ops (s_thread s i) = o :: ops -> o = OStart \/ o = OFinish -> i = ctl).
  { intros i o ops E H. destruct (Z.eq_dec i ctl) as [|N]; [assumption|]. exfalso. destruct (Pn i N) as [B D]. rewrite (k_prog _ _ _ K i), E in B, D.
    destruct H as [-> | ->]; [apply B|apply D]; apply in_or_app; right; left; reflexivity. }
  (* what an access to a location by an application thread implies *)
  assert (App_ok : forall i w, In (l, w) (accesses s (App i)) ->
    match l with
    | LStack j => j = i /\ (holds_stack (s_thread s i) = true \/ exiting (t_pc (s_thread s i)) = true)
    | LSet => holds_p (s_thread s i) = true
    | LIsProfiling => i = ctl
    | LShouldFinish => False
    end).
  { intros i w H. pose proof (l_wf _ L i) as W. pose proof (Ctl i) as Ci. destruct (s_thread s i) as [p ops] eqn:E. unfold accesses in H. rewrite E in H.
    unfold wf, holds_stack, holds_p in *. cbn [t_pc t_ops] in *.
    destruct p; try (destruct ops as [|[] ops]); cbn in H; try contradiction; repeat destruct H as [H|H]; try contradiction; try (injection H as <- <-); cbn; auto;
      try congruence; eapply Ci; eauto. }
  assert (Prof_ok : forall w, In (l, w) (accesses s Prof) -> w = false /\
    match l with LStack j => prof_stack (s_prof s) j = true /\ In j (s_set s) | LSet => prof_p (s_prof s) = true | _ => False end).
  { intros w H. unfold accesses in H. destruct (s_prof s) as [| | |todo ?|t todo ? ?|stacks|] eqn:E; cbn in H; try contradiction;
      repeat destruct H as [H|H]; try contradiction; injection H as <- <-; cbn; auto; try congruence.
    - split; [reflexivity|]. split; [apply Z.eqb_refl|]. apply (prof_alive tr s t T A). rewrite E. reflexivity.
    - exfalso. exact (N2 _ eq_refl eq_refl). }
  assert (Two : forall i w v, In (l, w) (accesses s (App i)) -> In (l, v) (accesses s Prof) -> False).
  { intros i w v H1 H2. apply App_ok in H1. apply Prof_ok in H2. destruct H2 as [_ H2]. destruct l as [j| | |]; try contradiction.
    - destruct H1 as [-> [H1|H1]]; destruct H2 as [H2 H3].
      + apply (l_excl _ L) in H1. congruence.
      + apply A in H3. destruct H3. congruence.
    - apply (l_p _ L) in H1. apply (l_pp _ L) in H2. congruence. }
  destruct a as [i|], b as [j|].
  - apply App_ok in Ha, Hb. apply Nab. f_equal. destruct l as [k| | |]; try contradiction.
    + destruct Ha, Hb. congruence.
    + apply (l_p _ L) in Ha, Hb. congruence.
    + congruence.
  - exact (Two _ _ _ Ha Hb).
  - exact (Two _ _ _ Hb Ha).
  - congruence.
Qed.
