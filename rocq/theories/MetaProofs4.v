(* MetaProofs4.v: the cache friendly executors, MultiThreadGemm, and the scratch
   memory that packing needs. *)
From Coq Require Import Permutation.
From Verif Require Import Base BaseLemmas OutputModel OutputProofs GemmContract GemmProofs4 EightBitModel MetaModel MetaSpec MetaProofs MetaProofs2 MetaProofs3.

(* ------------------------------------------------------------------ *)
(* cache friendly executors *)
Section CacheFriendly.
Context {A : Type} (p : gemm_params A).
Definition rhs_cache_need (m n T : Z) : Z :=
  PackedStride m 8 (p_left p) + chunks_size n (p_n p / T + p_n p mod T) (p_right p).
Definition lhs_cache_need (m n T : Z) : Z :=
  PackedStride n 8 (p_right p) + chunks_size m (p_m p / T + p_m p mod T) (p_left p).

Lemma RHSCacheFriendly_ok cache m n f g T : kernel_exists m n = true -> params_ok p f g -> 1 <= p_n p ->
  CalculateCacheFriendlyTasksCount cache (PackedStride m 8 (p_left p)) (PackedStride n 8 (p_right p)) (p_n p) n = Some T ->
  computes (MetaGemm (PackRHSCacheFriendly cache) m n 8 p) p (rhs_cache_need m n T) f g.
Proof.
  intros He Hp Hn ET sc log Ha. pose proof (kernel_exists_range m n He) as Hr. assert (Hp' := Hp). destruct Hp' as [Hm _ Hk HL HR HC RL RR].
  rewrite MetaGemm_eq by lia. unfold PackRHSCacheFriendly. rewrite ET. cbn [bind].
  pose proof (PackedStride_pos m (p_left p) ltac:(lia) ltac:(lia)). pose proof (PackedStride_pos n (p_right p) ltac:(lia) ltac:(lia)).
  destruct (tasks_count _ _ _ _ _ _ ET ltac:(lia) ltac:(lia) ltac:(lia) ltac:(lia)) as (av & Hav & Hfit & Hcc & HT & _).
  specialize (HT Hn). destruct (Z.eqb_spec T 1) as [->|Hne].
  - replace (rhs_cache_need m n 1) with (rhs_need p m n) in *.
    2:{ unfold rhs_need, rhs_cache_need. rewrite Z.div_1_r, Z.mod_1_r, Z.add_0_r. reflexivity. }
    apply (PackRHS_ok p m n f g); auto.
  - replace (T =? 0) with false by lia. cbn [negb guard bind].
    destruct (split_dim_partition (p_n p) T HT) as [P1 [P2 P3]].
    destruct (run_list_ok (fun c => MetaGemm PackRHS m n 8 (UpdateCacheFriendlyTask 0 (p_m p) (fst c) (snd c) p))
       (fun c i j => 0 <= i < 0 + p_m p /\ fst c <= j < fst c + snd c) (entry_address p) (entry_value p f g)
       (p_scratch p) (p_scratch p + rhs_cache_need m n T) (split_dim (p_n p) T)) with (sc := sc) (log := log) as (s' & t & E & F & L).
    + intros t u c d i j Hc Hd [_ I1] [_ I2]. exact (P3 t u c d j Hc Hd I1 I2).
    + intros c s l Hc Has. destruct (P1 c Hc) as [C1 [C2 C3]].
      set (q := UpdateCacheFriendlyTask 0 (p_m p) (fst c) (snd c) p).
      assert (Hq : params_ok q (fun i => f (0 + i)) (fun j => g (fst c + j))).
      { eapply sub_params_ok; [apply sub_Update|exact Hp| | | | | |]; lia. }
      destruct (MetaGemm_PackRHS q m n _ _ He Hq s l) as (s1 & t1 & E1 & F1 & L1).
      * eapply alloc_sub; [exact Has|cbn; lia|]. unfold rhs_need, rhs_cache_need. cbn [q UpdateCacheFriendlyTask p_scratch p_left p_right p_n].
        pose proof (chunks_size_mono n (snd c) (p_n p / T + p_n p mod T) (p_right p) ltac:(lia) ltac:(pose proof (split_dim_sizes _ _ _ HT Hc); lia) ltac:(lia)). lia.
      * exists s1, t1. split; [exact E1|]. split.
        -- eapply frame_sub; [exact F1|cbn; lia|]. unfold rhs_need, rhs_cache_need. cbn [q UpdateCacheFriendlyTask p_scratch p_left p_right p_n].
           pose proof (chunks_size_mono n (snd c) (p_n p / T + p_n p mod T) (p_right p) ltac:(lia) ltac:(pose proof (split_dim_sizes _ _ _ HT Hc); lia) ltac:(lia)). lia.
        -- eapply sub_params_log; [apply sub_Update|exact L1].
    + exact Ha.
    + exists s', t. split; [exact E|]. split; [exact F|]. eapply log_ext; [exact L| |auto]. intros i j. unfold rect. split.
      * intros [c [Hc [I1 I2]]]. apply P1 in Hc. lia.
      * intros [I1 I2]. destruct (P2 j I2) as [c [Hc I3]]. exists c. unfold in_chunk in I3. split; [exact Hc|lia].
Qed.
Lemma RHSCacheFriendly_fits cache m n f g T : kernel_exists m n = true -> params_ok p f g -> 1 <= p_n p ->
  CalculateCacheFriendlyTasksCount cache (PackedStride m 8 (p_left p)) (PackedStride n 8 (p_right p)) (p_n p) n = Some T ->
  p_n p mod T <= 1 -> rhs_cache_need m n T <= cache.
Proof.
  intros He [Hm _ Hk HL HR HC RL RR] Hn ET Hmod. pose proof (kernel_exists_range m n He) as Hr.
  pose proof (PackedStride_pos m (p_left p) ltac:(lia) ltac:(lia)). pose proof (PackedStride_pos n (p_right p) ltac:(lia) ltac:(lia)).
  destruct (tasks_count _ _ _ _ _ _ ET ltac:(lia) ltac:(lia) ltac:(lia) ltac:(lia)) as (av & Hav & Hfit & Hcc & HT & _).
  specialize (HT Hn). unfold rhs_cache_need, chunks_size. pose proof (Z.mod_pos_bound (p_n p) T ltac:(lia)).
  pose proof (chunk_fits (p_n p) n T av (p_n p / T + p_n p mod T) ltac:(lia) Hav HT Hcc Hmod ltac:(lia)) as Hc. nia.
Qed.
Lemma LHSCacheFriendly_ok cache m n f g T : kernel_exists m n = true -> params_ok p f g -> 1 <= p_m p ->
  CalculateCacheFriendlyTasksCount cache (PackedStride n 8 (p_right p)) (PackedStride m 8 (p_left p)) (p_m p) m = Some T ->
  computes (MetaGemm (PackLHSCacheFriendly cache) m n 8 p) p (lhs_cache_need m n T) f g.
Proof.
  intros He Hp Hm1 ET sc log Ha. pose proof (kernel_exists_range m n He) as Hr. assert (Hp' := Hp). destruct Hp' as [Hm Hn Hk HL HR HC RL RR].
  rewrite MetaGemm_eq by lia. unfold PackLHSCacheFriendly. rewrite ET. cbn [bind].
  pose proof (PackedStride_pos m (p_left p) ltac:(lia) ltac:(lia)). pose proof (PackedStride_pos n (p_right p) ltac:(lia) ltac:(lia)).
  destruct (tasks_count _ _ _ _ _ _ ET ltac:(lia) ltac:(lia) ltac:(lia) ltac:(lia)) as (av & Hav & Hfit & Hcc & HT & _).
  specialize (HT Hm1). destruct (Z.eqb_spec T 1) as [->|Hne].
  - replace (lhs_cache_need m n 1) with (lhs_need p m n) in *.
    2:{ unfold lhs_need, lhs_cache_need. rewrite Z.div_1_r, Z.mod_1_r, Z.add_0_r. reflexivity. }
    apply (PackLHS_ok p m n f g); auto.
  - replace (T =? 0) with false by lia. cbn [negb guard bind].
    destruct (split_dim_partition (p_m p) T HT) as [P1 [P2 P3]].
    destruct (run_list_ok (fun c => MetaGemm PackLHS m n 8 (UpdateCacheFriendlyTask (fst c) (snd c) 0 (p_n p) p))
       (fun c i j => fst c <= i < fst c + snd c /\ 0 <= j < 0 + p_n p) (entry_address p) (entry_value p f g)
       (p_scratch p) (p_scratch p + lhs_cache_need m n T) (split_dim (p_m p) T)) with (sc := sc) (log := log) as (s' & t & E & F & L).
    + intros t u c d i j Hc Hd [I1 _] [I2 _]. exact (P3 t u c d i Hc Hd I1 I2).
    + intros c s l Hc Has. destruct (P1 c Hc) as [C1 [C2 C3]].
      set (q := UpdateCacheFriendlyTask (fst c) (snd c) 0 (p_n p) p).
      assert (Hq : params_ok q (fun i => f (fst c + i)) (fun j => g (0 + j))).
      { eapply sub_params_ok; [apply sub_Update|exact Hp| | | | | |]; lia. }
      destruct (MetaGemm_PackLHS q m n _ _ He Hq s l) as (s1 & t1 & E1 & F1 & L1).
      * eapply alloc_sub; [exact Has|cbn; lia|]. unfold lhs_need, lhs_cache_need. cbn [q UpdateCacheFriendlyTask p_scratch p_left p_right p_m].
        pose proof (chunks_size_mono m (snd c) (p_m p / T + p_m p mod T) (p_left p) ltac:(lia) ltac:(pose proof (split_dim_sizes _ _ _ HT Hc); lia) ltac:(lia)). lia.
      * exists s1, t1. split; [exact E1|]. split.
        -- eapply frame_sub; [exact F1|cbn; lia|]. unfold lhs_need, lhs_cache_need. cbn [q UpdateCacheFriendlyTask p_scratch p_left p_right p_m].
           pose proof (chunks_size_mono m (snd c) (p_m p / T + p_m p mod T) (p_left p) ltac:(lia) ltac:(pose proof (split_dim_sizes _ _ _ HT Hc); lia) ltac:(lia)). lia.
        -- eapply sub_params_log; [apply sub_Update|exact L1].
    + exact Ha.
    + exists s', t. split; [exact E|]. split; [exact F|]. eapply log_ext; [exact L| |auto]. intros i j. unfold rect. split.
      * intros [c [Hc [I1 I2]]]. apply P1 in Hc. lia.
      * intros [I1 I2]. destruct (P2 i I1) as [c [Hc I3]]. exists c. unfold in_chunk in I3. split; [exact Hc|lia].
Qed.
Lemma LHSCacheFriendly_fits cache m n f g T : kernel_exists m n = true -> params_ok p f g -> 1 <= p_m p ->
  CalculateCacheFriendlyTasksCount cache (PackedStride n 8 (p_right p)) (PackedStride m 8 (p_left p)) (p_m p) m = Some T ->
  p_m p mod T <= 1 -> lhs_cache_need m n T <= cache.
Proof.
  intros He [Hm Hn Hk HL HR HC RL RR] Hm1 ET Hmod. pose proof (kernel_exists_range m n He) as Hr.
  pose proof (PackedStride_pos m (p_left p) ltac:(lia) ltac:(lia)). pose proof (PackedStride_pos n (p_right p) ltac:(lia) ltac:(lia)).
  destruct (tasks_count _ _ _ _ _ _ ET ltac:(lia) ltac:(lia) ltac:(lia) ltac:(lia)) as (av & Hav & Hfit & Hcc & HT & _).
  specialize (HT Hm1). unfold lhs_cache_need, chunks_size. pose proof (Z.mod_pos_bound (p_m p) T ltac:(lia)).
  pose proof (chunk_fits (p_m p) m T av (p_m p / T + p_m p mod T) ltac:(lia) Hav HT Hcc Hmod ltac:(lia)) as Hc. nia.
Qed.
End CacheFriendly.

(* ------------------------------------------------------------------ *)
(* concurrent tasks *)
Lemma log_perm {A} P addr (v : Z -> Z -> A) l l' : Permutation l' l -> log_over P addr v l -> log_over P addr v l'.
Proof.
  intros HP [vis [E [N H]]]. subst l.
  apply Permutation_map_inv in HP as (vis' & E' & HP'). exists vis'. split; [exact E'|]. split.
  - eapply Permutation_NoDup; [exact HP'|exact N].
  - intros i j. rewrite <- H. split; intros Hin; [eapply Permutation_in; [symmetry; exact HP'|exact Hin]|eapply Permutation_in; [exact HP'|exact Hin]].
Qed.
Lemma tasks_log {A R} (inr : R -> Z -> Z -> Prop) addr (v : Z -> Z -> A) l logs :
  (forall t u r s i j, nth_error l t = Some r -> nth_error l u = Some s -> inr r i j -> inr s i j -> t = u) ->
  Forall2 (fun r t => log_over (inr r) addr v t) l logs ->
  log_over (fun i j => exists r, In r l /\ inr r i j) addr v (concat logs).
Proof.
  intros D H. revert D. induction H as [|r t l logs H1 H2 IH]; intros D; cbn [concat].
  - apply log_nil. intros i j [r [[] _]].
  - assert (D' : forall t u r s i j, nth_error l t = Some r -> nth_error l u = Some s -> inr r i j -> inr s i j -> t = u).
    { intros a b x y i j Hx Hy Rx Ry. specialize (D (S a) (S b) x y i j Hx Hy Rx Ry). lia. }
    eapply log_ext; [eapply log_app; [exact H1|exact (IH D')|]| |auto].
    + intros i j R1 [x [Hx R2]]. apply In_nth_error in Hx. destruct Hx as [u Hu]. specialize (D 0%nat (S u) r x i j eq_refl Hu R1 R2). lia.
    + intros i j. split.
      * intros [R1|[x [Hx R2]]]; [exists r; split; [left; reflexivity|exact R1]|exists x; split; [right; exact Hx|exact R2]].
      * intros [x [[<-|Hx] R2]]; [left; exact R2|right; exists x; auto].
Qed.
Lemma one_phase {A} (logs : list (list A)) tr : execution [logs] tr -> Permutation tr (concat logs).
Proof.
  intros H. inversion H as [|ph phs t1 t2 H1 H2]; subst. inversion H2; subst. rewrite app_nil_r. apply interleaving_perm. exact H1.
Qed.
Lemma alloc_part sc s len : alloc sc s (s + len) -> alloc (part sc s len) s (s + len).
Proof. intros H a Ha. unfold part. replace ((s <=? a) && (a <? s + len)) with true by lia. apply H, Ha. Qed.

Section Threads.
Context {A : Type} (p : gemm_params A) (estimate : gemm_params A -> Z).
Definition scratch_total (l : list (gemm_params A)) : Z := fold_right (fun q s => estimate q + s) 0 l.
Lemma scratch_total_pos l : (forall q, In q l -> 0 <= estimate q) -> 0 <= scratch_total l.
Proof. intros H. induction l as [|q l IH]; [reflexivity|]. cbn [scratch_total fold_right]. pose proof (H q (or_introl eq_refl)). specialize (IH (fun x Hx => H x (or_intror Hx))). unfold scratch_total in IH. lia. Qed.
(* scratch areas of the tasks follow each other *)
Lemma prepare_all_areas l : forall s, (forall q, In q (prepare_all estimate p s l) -> 0 <= estimate q) ->
  (forall i q, nth_error (prepare_all estimate p s l) i = Some q -> s <= p_scratch q /\ p_scratch q + estimate q <= s + scratch_total (prepare_all estimate p s l)) /\
  (forall i j q r, (i < j)%nat -> nth_error (prepare_all estimate p s l) i = Some q -> nth_error (prepare_all estimate p s l) j = Some r ->
     p_scratch q + estimate q <= p_scratch r).
Proof.
  induction l as [|x l IH]; intros s H; cbn [prepare_all] in *.
  - split; [intros [|i] q; discriminate|intros [|i] j q r _; discriminate].
  - set (q0 := PrepareGemmTask p s x) in *. assert (E0 := H q0 (or_introl eq_refl)).
    assert (H' : forall q, In q (prepare_all estimate p (s + estimate q0) l) -> 0 <= estimate q) by (intros q Hq; apply H; right; exact Hq).
    destruct (IH (s + estimate q0) H') as [I1 I2]. cbn [scratch_total fold_right]. fold (scratch_total (prepare_all estimate p (s + estimate q0) l)).
    pose proof (scratch_total_pos _ H') as T0. split.
    + intros [|i] q Hq; cbn [nth_error] in Hq.
      * injection Hq as <-. change (p_scratch q0) with s. lia.
      * apply I1 in Hq. lia.
    + intros [|i] [|j] q r Hij Hq Hr; cbn [nth_error] in *; try lia.
      * injection Hq as <-. change (p_scratch q0) with s. apply I1 in Hr. lia.
      * apply (I2 i j); auto. lia.
Qed.

Lemma run_gemm_tasks_ok e km kn f g sc l : forall s,
  (forall r, In r l -> 0 <= tr_m_offset r /\ 0 < tr_m r /\ tr_m_offset r + tr_m r <= p_m p /\
                       0 <= tr_n_offset r /\ 0 < tr_n r /\ tr_n_offset r + tr_n r <= p_n p) ->
  (forall q f' g', In q (prepare_all estimate p s l) -> params_ok q f' g' -> 0 <= estimate q /\ computes (MetaGemm e km kn 8 q) q (estimate q) f' g') ->
  params_ok p f g -> alloc sc s (s + scratch_total (prepare_all estimate p s l)) ->
  exists logs, run_gemm_tasks e estimate km kn 8 sc (prepare_all estimate p s l) = Some logs /\
    Forall2 (fun r t => log_over (in_rect r) (entry_address p) (entry_value p f g) t) l logs.
Proof.
  induction l as [|x l IH]; intros s Hl Hq Hp Ha; cbn [prepare_all run_gemm_tasks].
  - exists []. split; [reflexivity|constructor].
  - cbn [prepare_all] in Hq, Ha. set (q0 := PrepareGemmTask p s x) in *.
    assert (Hx := Hl x (or_introl eq_refl)).
    assert (HP : params_ok q0 (fun i => f (tr_m_offset x + i)) (fun j => g (tr_n_offset x + j))).
    { eapply sub_params_ok; [apply sub_Prepare|exact Hp| | | | | |]; lia. }
    destruct (Hq q0 _ _ (or_introl eq_refl) HP) as [E0 C0].
    cbn [scratch_total fold_right] in Ha. fold (scratch_total (prepare_all estimate p (s + estimate q0) l)) in Ha.
    assert (Hpos : 0 <= scratch_total (prepare_all estimate p (s + estimate q0) l)).
    { clear IH C0 E0.
      apply scratch_total_pos. intros q HQ.
      assert (HR : exists f' g', params_ok q f' g').
      { clear -HQ Hl Hp. revert HQ. generalize (s + estimate q0). intros s' HQ.
        assert (HL : forall r, In r l -> 0 <= tr_m_offset r /\ 0 < tr_m r /\ tr_m_offset r + tr_m r <= p_m p /\
                       0 <= tr_n_offset r /\ 0 < tr_n r /\ tr_n_offset r + tr_n r <= p_n p) by (intros r Hr; apply Hl; right; exact Hr).
        clear Hl. revert s' HQ. induction l as [|y l IH]; intros s' HQ; [destruct HQ|]. cbn [prepare_all] in HQ. destruct HQ as [<-|HQ].
        - assert (Hy := HL y (or_introl eq_refl)). exists (fun i => f (tr_m_offset y + i)), (fun j => g (tr_n_offset y + j)).
          eapply sub_params_ok; [apply sub_Prepare|exact Hp| | | | | |]; lia.
        - eapply IH; [intros r Hr; apply HL; right; exact Hr|exact HQ]. }
      destruct HR as (f' & g' & HR). exact (proj1 (Hq q f' g' (or_intror HQ) HR)). }
    destruct (C0 (part sc (p_scratch q0) (estimate q0)) []) as (s1 & t1 & E1 & F1 & L1).
    { apply alloc_part. change (p_scratch q0) with s. eapply alloc_sub; [exact Ha|lia|lia]. }
    rewrite E1. cbn [bind].
    destruct (IH (s + estimate q0)) as (logs & E2 & H2).
    + intros r Hr. apply Hl. right. exact Hr.
    + intros q f' g' HQ. apply Hq. right. exact HQ.
    + exact Hp.
    + eapply alloc_sub; [exact Ha|lia|lia].
    + rewrite E2. cbn [bind snd]. exists (t1 :: logs). split; [reflexivity|]. constructor; [|exact H2].
      exact (sub_params_log _ _ _ _ _ _ f g t1 (sub_Prepare p s x) L1).
Qed.

Lemma prepare_all_sizes l : (forall r, In r l -> 0 <= tr_m_offset r /\ 0 < tr_m r /\ tr_m_offset r + tr_m r <= p_m p /\
                       0 <= tr_n_offset r /\ 0 < tr_n r /\ tr_n_offset r + tr_n r <= p_n p) ->
  forall s q, In q (prepare_all estimate p s l) -> 1 <= p_m q /\ 1 <= p_n q.
Proof.
  induction l as [|y l IH]; intros HL s q Hq; [destruct Hq|]. cbn [prepare_all] in Hq. destruct Hq as [<-|Hq].
  - assert (Hy := HL y (or_introl eq_refl)). cbn. lia.
  - eapply IH; [intros r Hr; apply HL; right; exact Hr|exact Hq].
Qed.
Definition mt_scratch (mode : ovf) (hw mnt : Z) : Z :=
  match PrepareGemmTasks mode estimate hw mnt p with Some (Some l) => scratch_total l | _ => estimate p end.
Lemma MultiThreadGemm_ok mode e km kn hw mnt f g sc :
  params_ok p f g -> 1 <= p_m p -> 1 <= p_n p ->
  mode = Wrap \/ p_m p * p_n p <= 2 ^ 31 - 1 /\ p_m p * p_n p * p_k p <= 2 ^ 31 - 1 ->
  (forall q f' g', params_ok q f' g' -> 1 <= p_m q -> 1 <= p_n q -> 0 <= estimate q /\ computes (MetaGemm e km kn 8 q) q (estimate q) f' g') ->
  alloc sc (p_scratch p) (p_scratch p + mt_scratch mode hw mnt) ->
  exists logs, MultiThreadGemm mode e estimate km kn 8 hw mnt p sc = Some [logs] /\
    1 <= Z.of_nat (length logs) <= Z.max 1 (ResolveMaxThreads hw mnt) /\
    forall trace, execution [logs] trace -> log_over (rect (p_m p) (p_n p)) (entry_address p) (entry_value p f g) trace.
Proof.
  intros Hp Hm Hn Hmode He Ha. destruct (real_tasks_defined mode (ResolveMaxThreads hw mnt) (p_m p) (p_n p) (p_k p) Hm Hn) as [T ET].
  { destruct Hp. lia. } { exact Hmode. }
  unfold MultiThreadGemm, mt_scratch in *. unfold PrepareGemmTasks in *. rewrite ET in Ha |- *. cbn [bind] in Ha |- *.
  destruct (real_tasks_bound _ _ _ _ _ _ ET) as [B1 B2]. destruct (Z.eqb_spec T 1) as [HT1|Hne]; [subst T|].
  - destruct (He p f g Hp Hm Hn) as [_ C]. destruct (C sc [] Ha) as (s1 & t1 & E1 & F1 & L1).
    cbn [bind]. rewrite E1. cbn [alone bind snd app]. exists [t1]. split; [reflexivity|]. split; [cbn; lia|]. intros tr Htr.
    eapply log_perm; [apply one_phase; exact Htr|]. cbn [concat]. rewrite app_nil_r. exact L1.
  - destruct (split_tasks_partition T (p_m p) (p_n p) Hm Hn ltac:(lia) B2) as [[P1 [P2 P3]] [LEN _]].
    assert (HQ : forall s q, In q (prepare_all estimate p s (split_tasks T (p_m p) (p_n p))) -> 1 <= p_m q /\ 1 <= p_n q).
    { intros s q. apply prepare_all_sizes. exact P1. }
    destruct (run_gemm_tasks_ok e km kn f g sc (split_tasks T (p_m p) (p_n p)) (p_scratch p) P1) as (logs & E & H2).
    + intros q f' g' Hin Hq. destruct (HQ _ _ Hin). apply He; assumption.
    + exact Hp.
    + exact Ha.
    + cbn [bind]. rewrite E. cbn [bind]. exists logs. split; [reflexivity|]. split.
      * assert (HLe : length (split_tasks T (p_m p) (p_n p)) = length logs) by (clear - H2; induction H2; cbn; congruence). lia.
      * intros tr Htr. eapply log_perm; [apply one_phase; exact Htr|].
        eapply log_ext; [eapply tasks_log; [|exact H2]| |auto].
        -- exact P3.
        -- intros i j. unfold rect. split.
           ++ intros [r [Hr I]]. apply P1 in Hr. unfold in_rect in I. lia.
           ++ intros [I J]. apply P2; assumption.
Qed.
End Threads.

(* ------------------------------------------------------------------ *)
(* packing needs its memory *)
Definition dom (sc sc' : mem) : Prop := forall a, sc' a <> None -> sc a <> None.
Lemma dom_refl sc : dom sc sc. Proof. intros a H. exact H. Qed.
Lemma dom_trans a b c : dom a b -> dom b c -> dom a c. Proof. intros H1 H2 x Hx. apply H1, H2, Hx. Qed.
Lemma for_step_needs {S} (R : S -> S -> Prop) (body : Z -> S -> option S) stop :
  (forall s, R s s) -> (forall a b c, R a b -> R b c -> R a c) -> (forall i s0 s1, body i s0 = Some s1 -> R s0 s1) ->
  forall start s s', for_step start stop 1 body s = Some s' ->
  R s s' /\ forall i, start <= i < stop -> exists s0 s1, R s s0 /\ body i s0 = Some s1.
Proof.
  intros Rr Rt Hb start s s'. unfold for_step. remember (Z.to_nat (stop - start)) as fuel eqn:Ef. revert start s Ef.
  induction fuel as [|fuel IH]; intros start s Ef; cbn [for_loop]; destruct (Z.ltb_spec start stop) as [H|H]; try discriminate.
  - intros E. injection E as <-. split; [apply Rr|intros; lia].
  - destruct (body start s) as [s1|] eqn:E1; [|discriminate]. cbn [bind]. intros E.
    destruct (IH (start + 1) s1 ltac:(lia) E) as [R1 R2]. assert (R0 := Hb _ _ _ E1). split; [eapply Rt; eassumption|].
    intros i Hi. destruct (Z.eq_dec i start) as [->|Hne]; [exists s, s1; auto|].
    destruct (R2 i ltac:(lia)) as (s2 & s3 & R3 & E3). exists s2, s3. split; [eapply Rt; eassumption|exact E3].
  - intros E. injection E as <-. split; [apply Rr|intros; lia].
Qed.
Lemma wr_needs sc a v sc' : wr sc a v = Some sc' -> dom sc sc' /\ sc a <> None.
Proof.
  unfold wr. destruct (sc a) as [w|] eqn:E; [|discriminate]. intros H. injection H as <-. split; [|discriminate].
  intros x Hx. unfold upd in Hx. destruct (Z.eqb_spec x a) as [Hxa|Hxa]; [rewrite Hxa, E; discriminate|exact Hx].
Qed.
Definition dom1 (a b : mem * lanes_acc) : Prop := dom (fst a) (fst b).
Lemma pack_lane_needs input cnt src dst l s s' : pack_lane input cnt src dst l s = Some s' -> dom1 s s' /\ fst s dst <> None.
Proof.
  intros H. unfold pack_lane in H. apply (for_step_needs dom1) in H.
  - destruct H as [D H]. split; [exact D|]. destruct (H 0 ltac:(lia)) as ([s0 a0] & s1 & D0 & E).
    destruct (if 0 <? cnt then rd input (src + 0) else Some 0); [|discriminate]. cbn [bind] in E.
    destruct (wr s0 (dst + 0) z) eqn:W; [|discriminate]. apply wr_needs in W. rewrite Z.add_0_r in W. apply D0, W.
  - intros; apply dom_refl.
  - intros a b c; apply dom_trans.
  - intros i [s0 a0] s1 E. destruct (if i <? cnt then rd input (src + i) else Some 0); [|discriminate]. cbn [bind] in E.
    destruct (wr s0 (dst + i) z) eqn:W; [|discriminate]. cbn [bind] in E. injection E as <-. apply wr_needs in W. apply W.
Qed.
Lemma pack_block_needs input lanes stride cnt src dst s s' : pack_block input lanes stride cnt src dst s = Some s' ->
  dom1 s s' /\ (0 < lanes -> fst s dst <> None).
Proof.
  intros H. unfold pack_block in H. apply (for_step_needs dom1) in H.
  - destruct H as [D H]. split; [exact D|]. intros Hl. destruct (H 0 ltac:(lia)) as (s0 & s1 & D0 & E).
    apply pack_lane_needs in E. destruct E as [_ E]. rewrite Z.mul_0_r, Z.add_0_r in E. apply D0, E.
  - intros; apply dom_refl.
  - intros a b c; apply dom_trans.
  - intros i s0 s1 E. apply pack_lane_needs in E. apply E.
Qed.
Lemma wr32_needs sc a v sc' : wr32 sc a v = Some sc' -> dom sc sc'.
Proof.
  intros H. unfold wr32 in H. apply (for_step_needs dom) in H.
  - apply H.
  - apply dom_refl.
  - apply dom_trans.
  - intros i s0 s1 E. apply wr_needs in E. apply E.
Qed.
Lemma StreamPack_needs lanes lo s input src dst sc sc' : StreamPack lanes lo s input src dst sc = Some sc' ->
  dom sc sc' /\ (0 < lanes -> sc dst <> None).
Proof.
  unfold StreamPack. destruct (Z.eqb_spec lanes 0) as [->|Hne].
  { intros E. injection E as <-. split; [apply dom_refl|lia]. }
  destruct ((1 <=? lanes) && (lanes <=? 8) && (0 <=? lo) && (lo <? 8)) eqn:C1; [|discriminate]. cbn [guard bind].
  destruct ((1 <=? st_count s) && (lo <=? st_count s) && ((st_count s - lo) mod 8 =? 0)) eqn:C2; [|discriminate]. cbn [guard bind].
  set (B := (st_count s - lo) / 8).
  match goal with |- context [for_step 0 B 1 ?b ?x] => destruct (for_step 0 B 1 b x) as [[s1 a1]|] eqn:E1; [|discriminate] end. cbn [bind].
  apply (for_step_needs dom1) in E1; [|intros; apply dom_refl|intros a b c; apply dom_trans|intros i s0 s2 E; apply pack_block_needs in E; apply E].
  destruct E1 as [D1 H1]. unfold dom1 in D1. cbn [fst] in D1.
  set (X := if lo =? 0 then Some (s1, a1) else pack_block input lanes (st_stride s) lo (src + 8 * B) (dst + 8 * lanes * B) (s1, a1)).
  assert (HX : forall s2 a2, X = Some (s2, a2) -> dom s1 s2 /\ (lo <> 0 -> B = 0 -> s1 dst <> None)).
  { intros s2 a2. unfold X. destruct (Z.eqb_spec lo 0).
    - intros E. injection E as <- _. split; [apply dom_refl|lia].
    - intros E. apply pack_block_needs in E. destruct E as [D E]. split; [exact D|]. intros _ H0. rewrite H0 in E.
      replace (dst + 8 * lanes * 0) with dst in E by lia. apply E. lia. }
  destruct X as [[s2 a2]|]; [|discriminate]. cbn [bind]. destruct (HX s2 a2 eq_refl) as [D2 H2]. intros E3.
  apply (for_step_needs dom) in E3; [|apply dom_refl|apply dom_trans|intros i s0 s3 E; eapply wr32_needs; exact E].
  destruct E3 as [D3 _]. split.
  - eapply dom_trans; [exact D1|]. eapply dom_trans; eassumption.
  - intros Hl. destruct (Z.eq_dec B 0) as [HB|HB].
    + apply D1, H2; [|exact HB]. intros H0. unfold B in HB. rewrite H0 in *. lia.
    + assert (0 <= B) by (apply Z.div_pos; lia). destruct (H1 0 ltac:(lia)) as (s4 & s5 & D4 & E4).
      apply pack_block_needs in E4. destruct E4 as [_ E4]. unfold dom1 in D4. cbn [fst] in D4.
      replace (dst + 8 * lanes * 0) with dst in E4 by lia. apply D4, E4. exact Hl.
Qed.
Lemma rhs_strip_needs {A} (p : gemm_params A) n k nl kl pr mm src res st st' :
  rhs_strip p n k nl kl pr mm src res st = Some st' -> dom (fst st) (fst st').
Proof.
  unfold rhs_strip. match goal with |- context [StreamPack ?a ?b ?c ?d ?e ?f ?h] => destruct (StreamPack a b c d e f h) as [s1|] eqn:E1; [|discriminate] end. cbn [bind].
  match goal with |- context [for_step ?a ?b ?c ?d ?e] => destruct (for_step a b c d e); [|discriminate] end. cbn [bind].
  match goal with |- context [Multiply ?a ?b ?c ?d ?e ?f ?h ?i ?j ?k] => destruct (Multiply a b c d e f h i j k); [|discriminate] end. cbn [bind].
  intros E. injection E as <-. apply StreamPack_needs in E1. apply E1.
Qed.
Lemma PackRHS_needs {A} (p : gemm_params A) m n k ml nl kl st st' : PackRHS m n k ml nl kl p st = Some st' ->
  dom (fst st) (fst st') /\
  (forall i, 0 <= i < Z.quot (p_n p) n -> 0 < n -> fst st (p_scratch p + PackedStride m k (p_left p) + i * PackedStride n k (p_right p)) <> None) /\
  (0 < nl -> fst st (p_scratch p + PackedStride m k (p_left p) + Z.quot (p_n p) n * PackedStride n k (p_right p)) <> None).
Proof.
  unfold PackRHS. intros H. match type of H with context [for_step 0 (Z.quot (p_n p) n) 1 ?b (fst st)] => destruct (for_step 0 (Z.quot (p_n p) n) 1 b (fst st)) as [s1|] eqn:E1; [|discriminate] end. cbn [bind] in H.
  apply (for_step_needs dom) in E1; [|apply dom_refl|apply dom_trans|intros i s0 s2 E; apply StreamPack_needs in E; apply E]. destruct E1 as [D1 H1].
  match type of H with context [StreamPack nl ?a ?b ?c ?d ?e s1] => destruct (StreamPack nl a b c d e s1) as [s2|] eqn:E2; [|discriminate] end. cbn [bind] in H. apply StreamPack_needs in E2. destruct E2 as [D2 H2].
  match type of H with context [for_step 0 (Z.quot (p_m p) m) 1 ?b (s2, snd st)] => destruct (for_step 0 (Z.quot (p_m p) m) 1 b (s2, snd st)) as [s3|] eqn:E3; [|discriminate] end. cbn [bind] in H.
  apply (for_step_needs (fun a b => dom (fst a) (fst b))) in E3; [|intros; apply dom_refl|intros a b c; apply dom_trans|intros i s0 s4 E; apply rhs_strip_needs in E; exact E].
  destruct E3 as [D3 _]. cbn [fst] in D3.
  assert (D4 : dom (fst s3) (fst st')).
  { destruct (0 <? ml); [apply rhs_strip_needs in H; exact H|]. injection H as <-. apply dom_refl. }
  split; [|split].
  - eapply dom_trans; [exact D1|]. eapply dom_trans; [exact D2|]. eapply dom_trans; eassumption.
  - intros i Hi Hn. destruct (H1 i Hi) as (s5 & s6 & D5 & E5). apply StreamPack_needs in E5. apply D5, E5, Hn.
  - intros Hnl. apply D1, H2, Hnl.
Qed.
Lemma MetaGemm_PackRHS_needs {A} (p : gemm_params A) m n st st' : 0 < m -> 0 < n -> 0 <= p_m p -> 0 <= p_n p -> 0 <= p_k p ->
  MetaGemm PackRHS m n 8 p st = Some st' -> dom (fst st) (fst st') /\
  (forall i, 0 <= i < p_n p / n -> fst st (p_scratch p + PackedStride m 8 (p_left p) + i * PackedStride n 8 (p_right p)) <> None) /\
  (0 < p_n p mod n -> fst st (p_scratch p + PackedStride m 8 (p_left p) + p_n p / n * PackedStride n 8 (p_right p)) <> None).
Proof.
  intros Hm Hn H1 H2 H3. rewrite MetaGemm_eq by assumption. intros E. apply PackRHS_needs in E.
  rewrite Z.quot_div_nonneg in E by lia. destruct E as [E1 [E2 E3]]. auto.
Qed.
Lemma run_list_needs {S T} (R : S -> S -> Prop) (f : T -> S -> option S) l :
  (forall s, R s s) -> (forall a b c, R a b -> R b c -> R a c) -> (forall x s0 s1, In x l -> f x s0 = Some s1 -> R s0 s1) ->
  forall s s', run_list f l s = Some s' -> R s s' /\ forall x, In x l -> exists s0 s1, R s s0 /\ f x s0 = Some s1.
Proof.
  intros Rr Rt. induction l as [|y l IH]; intros Hf s s' H; cbn [run_list] in H.
  - injection H as <-. split; [apply Rr|intros x []].
  - destruct (f y s) as [s1|] eqn:E1; [|discriminate]. cbn [bind] in H.
    destruct (IH (fun x a b Hx => Hf x a b (or_intror Hx)) s1 s' H) as [R1 R2]. assert (R0 := Hf y s s1 (or_introl eq_refl) E1).
    split; [eapply Rt; eassumption|]. intros x [<-|Hx]; [exists s, s1; auto|].
    destruct (R2 x Hx) as (s2 & s3 & R3 & E3). exists s2, s3. split; [eapply Rt; eassumption|exact E3].
Qed.
