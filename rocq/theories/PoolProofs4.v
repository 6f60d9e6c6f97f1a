(* the GEMM on the pool *)
From Coq Require Import List ZArith Bool Lia.
Import ListNotations.
From Verif Require Import Base BaseLemmas CommonModel PackModel GemmSpec ComputeModel KernelSpec OutputModel UnpackModel OutputSpec GemmModel GemmContract GemmProofs4
  PoolModel PoolSpec PoolProofs PoolProofs2 PoolProofs3.

Lemma interleaving_map {X Y} (f : X -> Y) ls tr : interleaving ls tr -> interleaving (map (map f) ls) (map f tr).
Proof.
  intros H. induction H as [ls H|l1 a t l2 tr H IH].
  - apply il_done. intros l Hl. apply in_map_iff in Hl. destruct Hl as (t & <- & Ht). rewrite (H t Ht). reflexivity.
  - rewrite map_app in *. cbn [map] in *. apply il_step. exact IH.
Qed.
Lemma untag_assigned {A} (b : list (list A)) : map (map snd) (assigned b) = b.
Proof.
  unfold assigned. rewrite map_map. generalize (length b) at 1. intros n. generalize 0%nat at 1. induction b as [|t b IH]; intros k; [reflexivity|].
  cbn. rewrite IH. rewrite map_map. cbn. rewrite map_id. reflexivity.
Qed.
Lemma untag {A} (p : list (list (list A))) tr : execution (map assigned p) tr -> execution p (map snd tr).
Proof.
  revert tr. induction p as [|b p IH]; intros tr H; inversion H; subst; [apply ex_nil|]. rewrite map_app. apply ex_cons; [|auto].
  rewrite <- (untag_assigned b). apply interleaving_map. assumption.
Qed.
Lemma execution_split {A} (p1 p2 : list (list (list A))) tr : execution (p1 ++ p2) tr -> exists tr1 tr2, tr = tr1 ++ tr2 /\ execution p1 tr1 /\ execution p2 tr2.
Proof.
  revert tr. induction p1 as [|b p1 IH]; intros tr H.
  - exists [], tr. repeat split; [apply ex_nil|exact H].
  - inversion H as [|ph phs t1 t2 Hi He]; subst. destruct (IH t2 He) as (u1 & u2 & -> & H1 & H2). exists (t1 ++ u1), u2. split; [rewrite app_assoc; reflexivity|]. split; [apply ex_cons; assumption|exact H2].
Qed.

(* loops that succeed *)
Lemma for_loop_succ {S} (I : Z -> S -> Prop) stop step (body : Z -> S -> option S) :
  forall fuel i s s', for_loop fuel i stop step body s = Some s' -> I i s ->
  (forall j a b, (j < stop)%Z -> I j a -> body j a = Some b -> I (j + step)%Z b) -> exists j, (stop <= j)%Z /\ I j s'.
Proof.
  induction fuel as [|n IH]; intros i s s' H Hi Hb; cbn in H; destruct (Z.ltb_spec i stop) as [L|L]; try discriminate.
  - injection H as <-. eauto.
  - destruct (body i s) as [s1|] eqn:E; [|discriminate]. cbn in H. eapply IH; eauto.
  - injection H as <-. eauto.
Qed.
Lemma row_ranges_nonempty m kr rows tc l : (0 < tc)%Z -> row_ranges m kr rows tc = Some l -> l <> [].
Proof.
  intros Ht H. unfold row_ranges in H. destruct (for_step 0 tc 1 _ (0%Z, [])) as [[z l']|] eqn:E; [|discriminate]. cbn in H. injection H as <-.
  unfold for_step in E. destruct (for_loop_succ (fun i (st : Z * list (Z * Z)) => (i <= 0)%Z \/ snd st <> []) _ _ _ _ _ _ _ E) as (j & Hj & D).
  - left. lia.
  - intros j [a1 a2] b _ _ Hb. destruct (norm m 32 (rows * (j + 1))); [|discriminate]. cbn in Hb. injection Hb as <-. right. cbn. destruct a2; discriminate.
  - destruct D as [D|D]; [lia|exact D].
Qed.
Lemma mapiM_nonempty {A B} (f : Z -> A -> option B) i l l' : mapiM f i l = Some l' -> l <> [] -> l' <> [].
Proof. destruct l as [|a l]; [congruence|]. cbn. destruct (f i a); [|discriminate]. cbn. destruct (mapiM f (i + 1) l); [|discriminate]. cbn. intros H _. injection H as <-. discriminate. Qed.
Lemma multi_nonempty m K t hw mnt sc scs lhs rhs result lo ro p phases :
  MultiThreadGemm m K t hw mnt sc scs lhs rhs result lo ro p = Some phases -> forall b, In b phases -> b <> [].
Proof.
  unfold MultiThreadGemm. intros H.
  repeat match type of H with bind (guard ?c) _ = _ => destruct c; cbn [guard bind] in H; [|discriminate] end.
  destruct (HowManyThreads _ _ _ _ _ _ _) as [tc|]; [|discriminate]. cbn [bind] in H. destruct (tc =? 1)%Z.
  - destruct (SingleThreadGemm _ _ _ _ _ _ _ _ _ _); [|discriminate]. cbn in H. injection H as <-. intros b [<-|[]]. discriminate.
  - destruct (1 <? tc)%Z eqn:Et; cbn [guard bind] in H; [|discriminate]. destruct (BlockParams_Init _ _ _ _ _ _) as [bp|]; [|discriminate]. cbn [bind] in H.
    destruct (for_step _ _ _ _ _) as [[pr ph]|] eqn:E; [|discriminate]. cbn [bind] in H. injection H as <-. unfold for_step in E.
    destruct (for_loop_succ (fun _ (st : packed * list (list (list (Z * Z)))) => forall b, In b (snd st) -> b <> []) _ _ _ _ _ _ _ E) as (_ & _ & D).
    + intros b [].
    + intros j [a1 a2] [b1 b2] _ Ha Hb. cbn [snd] in *. destruct (mm_block _ _ _ _ _); [|discriminate]. cbn [bind] in Hb.
      destruct (PackRhs _ _ _ _ _ _ _ _ _) as [pr'|]; [|discriminate]. cbn [bind] in Hb.
      destruct (row_ranges _ _ _ _) as [rg|] eqn:Er; [|discriminate]. cbn [bind] in Hb.
      destruct (mapiM _ _ _) as [logs|] eqn:El; [|discriminate]. cbn [bind] in Hb. injection Hb as <- <-.
      intros b Hin. apply in_app_or in Hin. destruct Hin as [Hin|[<-|[]]]; [auto|].
      eapply mapiM_nonempty; [exact El|]. eapply row_ranges_nonempty; [|exact Er]. lia.
    + exact D.
Qed.
Lemma dispatch_nonempty m K t hw mnt sc scs lhs rhs result lo ro p phases :
  DispatchGemmShape m K t hw mnt sc scs lhs rhs result lo ro p = Some phases -> forall b, In b phases -> b <> [].
Proof.
  unfold DispatchGemmShape. intros H.
  repeat match type of H with
    | bind (guard ?c) _ = _ => destruct c; cbn [guard bind] in H; [|discriminate]
    | (if ?c then Some [] else _) = _ => destruct c; [injection H as <-; intros b []|]
    end.
  destruct (_ <? _)%Z; [|eapply multi_nonempty; eassumption].
  repeat match type of H with
    | bind (guard ?c) _ = _ => destruct c; cbn [guard bind] in H; [|discriminate]
    | (if ?c then Some [] else _) = _ => destruct c; [injection H as <-; intros b []|]
    end.
  destruct (_ <? _)%Z; [discriminate|eapply multi_nonempty; eassumption].
Qed.

Lemma gemm_on_pool m K t hw mnt sc scs lhs rhs result lo ro p L R LO RO out before :
  gemm_config_ok m K t hw mnt result ->
  gemm_problem m K (op_mem lhs) (op_map lhs) (op_mem rhs) (op_map rhs) result lo ro p L R LO RO out ->
  valid_view before result ->
  exists phases, DispatchGemmShape m K t hw mnt sc scs lhs rhs result lo ro p = Some phases /\
    forall spins previous later s,
      (forall b, In b (previous ++ later) -> b <> []) ->
      reachable spins (previous ++ phases ++ later) s ->
      s_returned s = (length previous + length phases)%nat -> s_pc s = MIdle ->
      exists tr1 tr2, map snd (s_trace s) = tr1 ++ tr2 /\ execution previous tr1 /\
        exists after, perform tr2 before = Some after /\ stored before after result out.
Proof.
  intros Hc HP Hv. destruct (gemm_correct m K t hw mnt sc scs lhs rhs result lo ro p L R LO RO out before Hc HP Hv) as (phases & E & _ & H).
  exists phases. split; [exact E|]. intros spins previous later s Hne Hr Hret Hpc.
  assert (Hne' : forall b, In b (previous ++ phases ++ later) -> b <> []).
  { intros b Hb. apply in_app_or in Hb. destruct Hb as [Hb|Hb]; [apply Hne; apply in_or_app; auto|]. apply in_app_or in Hb. destruct Hb as [Hb|Hb]; [eapply dispatch_nonempty; eauto|apply Hne; apply in_or_app; auto]. }
  pose proof (reachable_inv _ _ _ Hne' Hr) as I. pose proof (performed_idle _ _ I) as X. rewrite Hpc in X. specialize (X eq_refl).
  apply untag in X. rewrite Hret in X. rewrite app_assoc in X. rewrite firstn_app in X. rewrite firstn_all2 in X by (rewrite app_length; lia).
  rewrite app_length, Nat.sub_diag in X. cbn [firstn] in X. rewrite app_nil_r in X.
  destruct (execution_split _ _ _ X) as (tr1 & tr2 & E12 & X1 & X2). exists tr1, tr2. split; [exact E12|]. split; [exact X1|]. apply H. exact X2.
Qed.

Lemma gemm_on_pool_fair m K t hw mnt sc scs lhs rhs result lo ro p L R LO RO out before :
  gemm_config_ok m K t hw mnt result ->
  gemm_problem m K (op_mem lhs) (op_map lhs) (op_mem rhs) (op_map rhs) result lo ro p L R LO RO out ->
  valid_view before result ->
  exists phases, DispatchGemmShape m K t hw mnt sc scs lhs rhs result lo ro p = Some phases /\
    forall spins sched, fair sched ->
      exists n, let s := state_at spins (init phases) sched n in
        s_pc s = MEnd /\ s_failed s = false /\
        exists after, perform (map snd (s_trace s)) before = Some after /\ stored before after result out.
Proof.
  intros Hc HP Hv. destruct (gemm_correct m K t hw mnt sc scs lhs rhs result lo ro p L R LO RO out before Hc HP Hv) as (phases & E & _ & H).
  exists phases. split; [exact E|]. intros spins sched Hf.
  assert (Hne : forall b, In b phases -> b <> []) by (intros b Hb; eapply dispatch_nonempty; eauto).
  destruct (fair_end spins phases sched Hne Hf) as (n & Hn). exists n. cbv zeta. split; [exact Hn|].
  pose proof (state_at_reachable spins phases sched n) as Hr. pose proof (reachable_inv _ _ _ Hne Hr) as I. split; [apply (iv_fail _ _ I)|].
  apply H. apply untag. pose proof (performed_idle _ _ I) as X. rewrite Hn in X. specialize (X eq_refl).
  pose proof (todo_end _ _ _ Hr) as T. rewrite Hn in T. rewrite (all_returned _ _ I Hn T), firstn_all in X. exact X.
Qed.
