(* MetaProofs5.v: the legacy entry points of the Meta GEMM. *)
From Coq Require Import Permutation.
From Coq Require Import FinFun.
From Verif Require Import Base BaseLemmas FixedPointSpec OutputModel OutputProofs GemmContract EightBitModel MetaModel MetaSpec
  MetaProofs MetaProofs2 MetaProofs3 MetaProofs4.

(* entry of a product of shifted bytes *)
Definition dot (k lo ro : Z) (x y : Z -> Z) : Z := sumZ (fun d => (x d + lo) * (y d + ro)) 0 k.
Lemma dot_expand k lo ro x y : 0 <= k ->
  dot k lo ro x y = sumZ (fun d => x d * y d) 0 k + sumZ x 0 k * ro + sumZ y 0 k * lo + k * lo * ro.
Proof.
  intros Hk. unfold dot. rewrite (sumZ_ext _ (fun d => (x d * y d + ro * x d) + (lo * y d + lo * ro))) by (intros; ring).
  rewrite sumZ_add, sumZ_add, sumZ_add, !sumZ_mul_l, sumZ_const by exact Hk. lia.
Qed.
Lemma dot_comm k lo ro x y : dot k lo ro x y = dot k ro lo y x.
Proof. unfold dot. apply sumZ_ext. intros. ring. Qed.
Lemma rows_in_advance s stride m k f o m' : rows_in s stride m k f -> 0 <= o -> o + m' <= m ->
  rows_in (advance s (o * stride)) stride m' k (fun i => f (o + i)).
Proof.
  intros H H1 H2 i d Hi Hd. unfold advance. cbn [s_mem s_base].
  replace (s_base s + o * stride + i * stride + d) with (s_base s + (o + i) * stride + d) by lia. apply H; lia.
Qed.

Section Kind.
Context {A : Type} (mode : ovf) (kd : kind A) (fin : Z -> A) (lo ro : Z).
Hypothesis Hfin : kd_fin kd = Some fin.
Hypothesis Hesz : 1 <= kd_esz kd.
Definition kvalue (k : Z) (x y : Z -> Z) : A := fin (wrapS 32 (dot k lo ro x y + kd_add kd)).
Definition params_arith (k : Z) : Prop :=
  mode = Wrap \/ fits 32 (k * lo) /\ fits 32 (k * lo * ro) /\ fits 32 (kd_add kd + k * lo * ro).

Lemma legacy_params_ok scratch lhs rhs m n k result ostride f g : params_arith k -> 0 <= m -> 0 <= n -> 1 <= k <= 2056 ->
  rows_in lhs k m k f -> rows_in rhs k n k g ->
  exists p, legacy_params mode kd scratch lhs rhs m n k lo ro result ostride = Some p /\ params_ok p f g /\
    p_m p = m /\ p_n p = n /\ p_scratch p = scratch /\ st_count (p_left p) = k /\ st_count (p_right p) = k /\
    (forall i j, entry_address p i j = result + i * ostride + j * kd_esz kd) /\
    (forall i j, entry_value p f g i j = kvalue k (f i) (g j)).
Proof.
  intros Ha Hm Hn Hk HL HR.
  assert (X : exists add, bind (norm mode 32 (k * lo)) (fun kl => bind (norm mode 32 (kl * ro)) (fun klr => norm mode 32 (kd_add kd + klr))) = Some add
     /\ forall z, wrapS 32 (z + add) = wrapS 32 (z + (kd_add kd + k * lo * ro))).
  { destruct Ha as [->|[H1 [H2 H3]]].
    - cbn [norm bind]. eexists. split; [reflexivity|]. intros z. rewrite wrapS_add_r by lia.
      rewrite wrapS_mul_l by lia. rewrite !Z.add_assoc. rewrite wrapS_add_r by lia. f_equal.
    - unfold fits in *. rewrite (norm_fits mode 32 (k * lo)) by (try lia; assumption). cbn [bind].
      rewrite (norm_fits mode 32 (k * lo * ro)) by (try lia; assumption). cbn [bind].
      rewrite norm_fits by (try lia; assumption). eexists. split; [reflexivity|]. reflexivity. }
  destruct X as (add & E & Hadd). unfold legacy_params.
  destruct (norm mode 32 (k * lo)) as [kl|]; [|discriminate]. cbn [bind] in *.
  destruct (norm mode 32 (kl * ro)) as [klr|]; [|discriminate]. cbn [bind] in *. rewrite E, Hfin. cbn [bind].
  eexists. split; [reflexivity|]. split; [split; cbn; auto; lia|]. cbn [p_m p_n p_scratch p_left p_right st_count]. repeat (split; [reflexivity|]).
  intros i j. unfold entry_value, stream_total, kvalue. cbn [p_fin p_left p_right p_k st_mult st_add].
  f_equal. rewrite dot_expand by lia.
  replace (sumZ (fun d => f i d * g j d) 0 k + (sumZ (f i) 0 k * ro + add) + (sumZ (g j) 0 k * lo + 0))
    with (sumZ (fun d => f i d * g j d) 0 k + sumZ (f i) 0 k * ro + sumZ (g j) 0 k * lo + add) by lia.
  rewrite Hadd. f_equal. lia.
Qed.

(* what ExecuteMatrixMatrix must do *)
Definition op_runs (op : operation A) (v : (Z -> Z) -> (Z -> Z) -> A) (m n k : Z) : Prop :=
  forall scratch lhs rhs result rs f g sc log, rows_in lhs k m k f -> rows_in rhs k n k g ->
  alloc sc scratch (scratch + op_scratch op) ->
  exists sc' t, op_execute op scratch lhs rhs m n k result rs (sc, log) = Some (sc', log ++ t) /\
    log_over (rect m n) (fun i j => result + op_esz op * (i * rs + j)) (fun i j => v (f i) (g j)) t.

(* ceil(n / 4) chunks of four columns and a strip of two rows *)
Definition gemm_need (k n : Z) : Z :=
  32 + (16 * blocks_of k + 31) / 32 * 32 + (n + 3) / 4 * (32 + 32 * blocks_of k).
Lemma rhs_need_24 (p : gemm_params A) k : 1 <= k -> st_count (p_left p) = k -> st_count (p_right p) = k ->
  rhs_need p 2 4 = gemm_need k (p_n p).
Proof.
  intros Hk HL HR. unfold rhs_need, chunks_size, gemm_need. rewrite !PackedStride_eq by lia. rewrite HL, HR.
  replace (p_n p + 4 - 1) with (p_n p + 3) by lia. replace ((8 * 4 * blocks_of k + 31) / 32) with (blocks_of k).
  2:{ symmetry. replace (8 * 4 * blocks_of k + 31) with (31 + blocks_of k * 32) by lia. rewrite Z.div_add by lia. reflexivity. }
  replace (8 * 2 * blocks_of k) with (16 * blocks_of k) by lia. lia.
Qed.
Lemma gemm_need_mono k n n' : 0 <= k -> n <= n' -> gemm_need k n <= gemm_need k n'.
Proof.
  intros Hk Hn. unfold gemm_need. assert (0 <= blocks_of k) by (unfold blocks_of; apply Z.div_pos; lia).
  assert ((n + 3) / 4 <= (n' + 3) / 4) by (apply Z.div_le_mono; lia). nia.
Qed.

Lemma gemm_strided_ok scratch lhs rhs m n k result rs f g sc log : params_arith k -> 0 <= m -> 0 <= n -> 1 <= k <= 2056 ->
  rows_in lhs k m k f -> rows_in rhs k n k g -> alloc sc scratch (scratch + gemm_need k n) ->
  exists sc' t, gemm_strided mode kd lo ro scratch lhs rhs m n k result rs (sc, log) = Some (sc', log ++ t) /\
    frame sc sc' scratch (scratch + gemm_need k n) /\
    log_over (rect m n) (fun i j => result + kd_esz kd * (i * rs + j)) (fun i j => kvalue k (f i) (g j)) t.
Proof.
  intros Hp Hm Hn Hk HL HR Ha. unfold gemm_strided.
  destruct (legacy_params_ok scratch lhs rhs m n k result (kd_esz kd * rs) f g Hp Hm Hn Hk HL HR)
    as (p & E & Hok & Em & En & Es & Ec1 & Ec2 & Ead & Ev). rewrite E. cbn [bind].
  destruct (MetaGemm_PackRHS p 2 4 f g eq_refl Hok sc log) as (s1 & t1 & E1 & F1 & L1).
  - rewrite (rhs_need_24 p k), Es, En by (try assumption; lia). exact Ha.
  - exists s1, t1. split; [exact E1|]. rewrite (rhs_need_24 p k), Es, En in F1 by (try assumption; lia). split; [exact F1|].
    rewrite Em, En in L1. eapply log_ext; [exact L1|reflexivity|]. intros i j _. rewrite Ead, Ev. split; [lia|reflexivity].
Qed.

(* scratch of a chunk: either it is small, or a big one of at most 2 * optimal_n - 1 columns *)
Definition gemm_fits (k n : Z) : Prop := 12 <= k \/ n * k <= 262144.
Lemma small_need_sweep : forallb (fun k => (k <? 8) || (gemm_need k (262144 / k) <=? 1048576)) (zrange 2049) = true.
Proof. vm_compute. reflexivity. Qed.
Lemma big_need_sweep : forallb (fun k => (k <? 12) || (gemm_need k (2 * (4 * (65536 / k)) - 1) <=? 1048576)) (zrange 2049) = true.
Proof. vm_compute. reflexivity. Qed.
Lemma chunk_need k len : 8 <= k <= 2048 -> gemm_fits k len \/ 12 <= k ->
  len * k <= 262144 \/ 12 <= k /\ len <= 2 * (4 * (65536 / k)) - 1 -> gemm_need k len <= 1048576.
Proof.
  intros Hk _ [H|[H1 H2]].
  - pose proof small_need_sweep as S. rewrite forallb_forall in S. specialize (S k ltac:(apply zrange_In; lia)).
    assert (len <= 262144 / k) by (apply Z.div_le_lower_bound; lia). pose proof (gemm_need_mono k len (262144 / k) ltac:(lia) H0). lia.
  - pose proof big_need_sweep as S. rewrite forallb_forall in S. specialize (S k ltac:(apply zrange_In; lia)).
    pose proof (gemm_need_mono k len (2 * (4 * (65536 / k)) - 1) ltac:(lia) H2). lia.
Qed.

Lemma gemm_operation_runs m n k : params_arith k -> 1 <= m -> 1 <= n -> 8 <= k <= 2048 -> n * k <= 2 ^ 31 - 1 -> gemm_fits k n ->
  op_runs (gemm_operation mode kd lo ro) (kvalue k) m n k.
Proof.
  intros Hp Hm Hn Hk Hnk Hfit scratch lhs rhs result rs f g sc log HL HR Ha.
  unfold gemm_operation. cbn [op_execute op_esz]. unfold CacheFriendlyMatrixMatrix.
  cbn [gemm_operation op_scratch] in Ha. change (4 * 262144) with 1048576 in Ha.
  destruct (cache_chunks_ok mode n k Hn ltac:(lia) Hnk ltac:(lia)) as (l & E & [P1 [P2 P3]] & Hs). rewrite E. cbn [bind].
  destruct (run_list_ok (fun c => gemm_strided mode kd lo ro scratch lhs (advance rhs (fst c * k)) m (snd c) k (result + kd_esz kd * fst c) rs)
     (fun c i j => 0 <= i < m /\ in_chunk c j) (fun i j => result + kd_esz kd * (i * rs + j)) (fun i j => kvalue k (f i) (g j))
     scratch (scratch + 1048576) l) with (sc := sc) (log := log) as (s' & t & E1 & F & L).
  - intros t u c d i j Hc Hd [_ I1] [_ I2]. exact (P3 t u c d j Hc Hd I1 I2).
  - intros c s lg Hc Has. destruct (P1 c Hc) as [C1 [C2 C3]].
    assert (Hneed : gemm_need k (snd c) <= 1048576).
    { destruct Hfit as [H12|Hsm].
      - apply chunk_need; [lia|right; exact H12|]. destruct (Hs c Hc) as [S|[[_ S]|[S _]]]; [left; exact S|right; auto|lia].
      - apply chunk_need; [lia|left; right; nia|left; nia]. }
    destruct (gemm_strided_ok scratch lhs (advance rhs (fst c * k)) m (snd c) k (result + kd_esz kd * fst c) rs f (fun j => g (fst c + j)) s lg)
      as (s1 & t1 & E1 & F1 & L1); auto; try lia.
    { eapply rows_in_advance; [exact HR|lia|lia]. }
    { eapply alloc_sub; [exact Has|lia|lia]. }
    exists s1, t1. split; [exact E1|]. split; [eapply frame_sub; [exact F1|lia|lia]|].
    apply (log_shift _ _ _ _ 0 (fst c)) in L1. eapply log_ext; [exact L1| |].
    + intros i j. unfold rect, in_chunk. lia.
    + intros i j _. split; [lia|]. rewrite Z.sub_0_r. replace (fst c + (j - fst c)) with j by lia. reflexivity.
  - exact Ha.
  - exists s', t. split; [exact E1|]. eapply log_ext; [exact L| |auto]. intros i j. unfold rect. split.
    + intros [c [Hc [I1 I2]]]. apply P1 in Hc. unfold in_chunk in I2. lia.
    + intros [I1 I2]. destruct (P2 j I2) as [c [Hc I3]]. exists c. auto.
Qed.

(* matrix times vector *)
Definition big_exists : Prop := kernel_exists (fst (kd_big kd)) (snd (kd_big kd)) = true.
Lemma lhs_need_bound (p : gemm_params A) m n k : kernel_exists m n = true -> p_m p = 1 -> 1 <= k <= 2048 ->
  st_count (p_left p) = k -> st_count (p_right p) = k -> lhs_need p m n <= 128 * 1024.
Proof.
  intros He Hm Hk HL HR. pose proof (kernel_exists_range m n He). unfold lhs_need, chunks_size. rewrite !PackedStride_eq by lia. rewrite HL, HR, Hm.
  assert (HB : 1 <= blocks_of k <= 256) by (unfold blocks_of; lia). replace (1 + m - 1) with (1 * m) by lia. rewrite Z.div_mul by lia.
  assert (n * blocks_of k <= 2048) by nia. assert (m * blocks_of k <= 2048) by nia. lia.
Qed.
Lemma gemv_operation_runs n k : params_arith k -> 1 <= n -> 1 <= k <= 2048 -> big_exists ->
  op_runs (gemv_operation mode kd lo ro) (kvalue k) 1 n k.
Proof.
  intros Hp Hn Hk Hbig scratch lhs rhs result rs f g sc log HL HR Ha.
  cbn [gemv_operation op_execute op_esz op_scratch] in *. unfold gemv.
  destruct (legacy_params_ok scratch lhs rhs 1 n k result 0 f g Hp ltac:(lia) ltac:(lia) ltac:(lia) HL HR)
    as (p & E & Hok & Em & En & Es & Ec1 & Ec2 & Ead & Ev). rewrite E. cbn [bind].
  assert (X : forall km kn, kernel_exists km kn = true -> exists sc' t, MetaGemm PackLHS km kn 8 p (sc, log) = Some (sc', log ++ t) /\
    log_over (rect 1 n) (fun i j => result + kd_esz kd * (i * rs + j)) (fun i j => kvalue k (f i) (g j)) t).
  { intros km kn He. destruct (MetaGemm_PackLHS p km kn f g He Hok sc log) as (s1 & t1 & E1 & F1 & L1).
    - rewrite Es. pose proof (lhs_need_bound p km kn k He Em Hk Ec1 Ec2). eapply alloc_sub; [exact Ha|lia|lia].
    - exists s1, t1. split; [exact E1|]. rewrite Em, En in L1. eapply log_ext; [exact L1|reflexivity|].
      intros i j [Hi Hj]. rewrite Ead, Ev. assert (i = 0) by lia. subst i. split; [lia|reflexivity]. }
  destruct (k <? kd_threshold kd); [apply X; reflexivity|apply X; exact Hbig].
Qed.
End Kind.

(* ------------------------------------------------------------------ *)
(* several threads *)
Lemma resolve_twice hw t : ResolveMaxThreads hw (ResolveMaxThreads hw t) = ResolveMaxThreads hw t.
Proof. unfold ResolveMaxThreads. destruct (Z.eqb_spec t 0) as [->|H]; [destruct (hw =? 0); reflexivity|]. destruct (Z.eqb_spec t 0); [lia|reflexivity]. Qed.
Lemma run_tasks_ok {A} (op : operation A) (v : (Z -> Z) -> (Z -> Z) -> A) sc lhs rhs k result rs f g m n l : forall scratch,
  0 <= op_scratch op ->
  (forall r, In r l -> 0 <= tr_m_offset r /\ 0 < tr_m r /\ tr_m_offset r + tr_m r <= m /\ 0 <= tr_n_offset r /\ 0 < tr_n r /\ tr_n_offset r + tr_n r <= n) ->
  (forall r, In r l -> op_runs op v (tr_m r) (tr_n r) k) -> rows_in lhs k m k f -> rows_in rhs k n k g ->
  alloc sc scratch (scratch + Z.of_nat (length l) * op_scratch op) ->
  exists logs, run_tasks op sc scratch lhs rhs k result rs l = Some logs /\
    Forall2 (fun r t => log_over (in_rect r) (fun i j => result + op_esz op * (i * rs + j)) (fun i j => v (f i) (g j)) t) l logs.
Proof.
  induction l as [|r l IH]; intros scratch Hs Hl Hop HL HR Ha; cbn [run_tasks].
  - exists []. split; [reflexivity|constructor].
  - assert (Hr := Hl r (or_introl eq_refl)). unfold MetaTask_Run. cbn [length] in Ha. rewrite Nat2Z.inj_succ in Ha.
    assert (0 <= Z.of_nat (length l) * op_scratch op) by nia.
    destruct (Hop r (or_introl eq_refl) scratch (advance lhs (tr_m_offset r * k)) (advance rhs (tr_n_offset r * k))
       (result + op_esz op * (tr_m_offset r * rs + tr_n_offset r)) rs (fun i => f (tr_m_offset r + i)) (fun j => g (tr_n_offset r + j))
       (part sc scratch (op_scratch op)) []) as (s1 & t1 & E1 & L1).
    { eapply rows_in_advance; [exact HL|lia|lia]. } { eapply rows_in_advance; [exact HR|lia|lia]. }
    { apply alloc_part. eapply alloc_sub; [exact Ha|lia|lia]. }
    rewrite E1. cbn [bind].
    destruct (IH (scratch + op_scratch op) Hs) as (logs & E2 & H2); auto.
    { intros x Hx. apply Hl. right. exact Hx. } { intros x Hx. apply Hop. right. exact Hx. }
    { eapply alloc_sub; [exact Ha|lia|lia]. }
    rewrite E2. cbn [bind snd]. exists (t1 :: logs). split; [reflexivity|]. constructor; [|exact H2]. cbn [app].
    apply (log_shift _ _ _ _ (tr_m_offset r) (tr_n_offset r)) in L1. eapply log_ext; [exact L1| |].
    + intros i j. unfold rect, in_rect. lia.
    + intros i j _. split; [lia|]. replace (tr_m_offset r + (i - tr_m_offset r)) with i by lia.
      replace (tr_n_offset r + (j - tr_n_offset r)) with j by lia. reflexivity.
Qed.

(* phases whose every execution stores v (f i) (g j) at the row-major places *)
Definition phases_ok {A} (ph : phases A) (m n : Z) (addr : Z -> Z -> Z) (v : Z -> Z -> A) : Prop :=
  exists logs, ph = [logs] /\ forall trace, execution ph trace -> log_over (rect m n) addr v trace.
Lemma alone_ok {A} (r : option (state A)) s t m n addr v : r = Some (s, t) -> log_over (rect m n) addr v t ->
  exists ph, alone r = Some ph /\ phases_ok ph m n addr v.
Proof.
  intros -> L. cbn [alone bind snd]. eexists. split; [reflexivity|]. exists [t]. split; [reflexivity|]. intros tr H.
  eapply log_perm; [apply one_phase; exact H|]. cbn [concat]. rewrite app_nil_r. exact L.
Qed.
Lemma MTMM_ok {A} mode (op : operation A) v hw mt sc lhs rhs m n k result rs f g :
  0 <= op_scratch op -> 1 <= m -> 1 <= n -> 0 <= k ->
  mode = Wrap \/ m * n <= 2 ^ 31 - 1 /\ m * n * k <= 2 ^ 31 - 1 ->
  (forall m' n', 1 <= m' <= m -> 1 <= n' <= n -> op_runs op v m' n' k) -> rows_in lhs k m k f -> rows_in rhs k n k g ->
  alloc sc 0 (Z.max 1 (ResolveMaxThreads hw mt) * op_scratch op) ->
  exists ph, MultiThreadedMatrixMatrix mode op hw mt sc lhs rhs m n k result rs = Some ph /\
    phases_ok ph m n (fun i j => result + op_esz op * (i * rs + j)) (fun i j => v (f i) (g j)).
Proof.
  intros Hs Hm Hn Hk Hmode Hop HL HR Ha. unfold MultiThreadedMatrixMatrix, PrepareTasks.
  destruct (real_tasks_defined mode (ResolveMaxThreads hw mt) m n k Hm Hn Hk Hmode) as [T ET]. rewrite ET. cbn [bind].
  destruct (real_tasks_bound _ _ _ _ _ _ ET) as [B1 B2].
  destruct (split_tasks_partition T m n Hm Hn ltac:(lia) B2) as [[P1 [P2 P3]] [LEN _]].
  assert (Ha1 : alloc sc 0 (0 + op_scratch op)).
  { eapply alloc_sub; [exact Ha|lia|]. assert (1 * op_scratch op <= Z.max 1 (ResolveMaxThreads hw mt) * op_scratch op) by (apply Z.mul_le_mono_nonneg_r; lia). lia. }
  assert (One : exists ph, alone (op_execute op 0 lhs rhs m n k result rs (sc, [])) = Some ph /\
     phases_ok ph m n (fun i j => result + op_esz op * (i * rs + j)) (fun i j => v (f i) (g j))).
  { destruct (Hop m n ltac:(lia) ltac:(lia) 0 lhs rhs result rs f g sc [] HL HR Ha1) as (s1 & t1 & E1 & L1).
    eapply alone_ok; [exact E1|exact L1]. }
  assert (Many : exists ph, (let* logs := run_tasks op sc 0 lhs rhs k result rs (split_tasks T m n) in Some [logs]) = Some ph /\
     phases_ok ph m n (fun i j => result + op_esz op * (i * rs + j)) (fun i j => v (f i) (g j))).
  { destruct (run_tasks_ok op v sc lhs rhs k result rs f g m n (split_tasks T m n) 0 Hs P1) as (logs & E & H2); auto.
    - intros r Hr. apply P1 in Hr. apply Hop; lia.
    - eapply alloc_sub; [exact Ha|lia|]. rewrite LEN. apply Z.mul_le_mono_nonneg_r; lia.
    - rewrite E. cbn [bind]. eexists. split; [reflexivity|]. exists logs. split; [reflexivity|]. intros tr Htr.
      eapply log_perm; [apply one_phase; exact Htr|]. eapply log_ext; [eapply tasks_log; [|exact H2]| |auto].
      + exact P3.
      + intros i j. unfold rect. split.
        * intros [r [Hr I]]. apply P1 in Hr. unfold in_rect in I. lia.
        * intros [I J]. apply P2; assumption. }
  destruct (split_tasks T m n) as [|r0 [|r1 rest]]; [exact Many|exact One|exact Many].
Qed.

Section Entry.
Context {A : Type} (mode : ovf) (kd : kind A) (fin : Z -> A).
Hypothesis Hfin : kd_fin kd = Some fin.
Hypothesis Hesz : 1 <= kd_esz kd.
Hypothesis Hbig : big_exists kd.
Lemma multi_thread_gemv_ok hw mt sc lhs rhs n k lo ro result rs f g :
  params_arith mode kd lo ro k -> 1 <= n -> 8 <= k <= 2048 -> n * k <= 2 ^ 31 - 1 ->
  rows_in lhs k 1 k f -> rows_in rhs k n k g -> alloc sc 0 (Z.max 1 (ResolveMaxThreads hw mt) * 1048576) ->
  exists ph, multi_thread_gemv mode kd hw mt sc lhs rhs n k lo ro result = Some ph /\
    phases_ok ph 1 n (fun i j => result + kd_esz kd * (i * rs + j)) (fun i j => kvalue kd fin lo ro k (f i) (g j)).
Proof.
  intros Hp Hn Hk Hnk HL HR Ha. unfold multi_thread_gemv.
  assert (Hadd : forall ph, phases_ok ph 1 n (fun i j => result + kd_esz kd * (i * n + j)) (fun i j => kvalue kd fin lo ro k (f i) (g j)) ->
     phases_ok ph 1 n (fun i j => result + kd_esz kd * (i * rs + j)) (fun i j => kvalue kd fin lo ro k (f i) (g j))).
  { intros ph (logs & E & H). exists logs. split; [exact E|]. intros tr Htr. eapply log_ext; [exact (H tr Htr)|reflexivity|].
    intros i j [Hi _]. assert (i = 0) by lia. subst i. split; [lia|reflexivity]. }
  assert (Hops : forall n', 1 <= n' <= n -> op_runs (gemv_operation mode kd lo ro) (kvalue kd fin lo ro k) 1 n' k).
  { intros n' Hn'. eapply gemv_operation_runs; eauto; lia. }
  assert (Hal : alloc sc 0 (Z.max 1 (ResolveMaxThreads hw mt) * (128 * 1024))) by (eapply alloc_sub; [exact Ha|lia|lia]).
  destruct (Z.eqb_spec (ResolveMaxThreads hw mt) 1) as [E1|E1].
  - destruct (Hops n ltac:(lia) 0 lhs rhs result n f g sc [] HL HR) as (s1 & t1 & E & L).
    { cbn [gemv_operation op_scratch]. eapply alloc_sub; [exact Hal|lia|lia]. }
    edestruct (alone_ok (op_execute (gemv_operation mode kd lo ro) 0 lhs rhs 1 n k result n (sc, []))) as (ph & E2 & H2); [exact E|exact L|].
    exists ph. split; [exact E2|]. apply Hadd. exact H2.
  - destruct (MTMM_ok mode (gemv_operation mode kd lo ro) (kvalue kd fin lo ro k) hw (ResolveMaxThreads hw mt) sc lhs rhs 1 n k result n f g) as (ph & E2 & H2); auto; try lia.
    + cbn. lia.
    + intros m' n' Hm' Hn'. replace m' with 1 by lia. apply Hops. lia.
    + rewrite resolve_twice. exact Hal.
    + exists ph. split; [exact E2|]. apply Hadd. exact H2.
Qed.

Lemma multi_thread_gemm_ok hw mt sc lhs rhs m n k lo ro result f g :
  params_arith mode kd lo ro k -> params_arith mode kd ro lo k -> 1 <= m -> 1 <= n -> 8 <= k <= 2048 ->
  m * k <= 2 ^ 31 - 1 -> n * k <= 2 ^ 31 - 1 -> mode = Wrap \/ m * n * k <= 2 ^ 31 - 1 -> gemm_fits k n ->
  rows_in lhs k m k f -> rows_in rhs k n k g -> alloc sc 0 (Z.max 1 (ResolveMaxThreads hw mt) * 1048576) ->
  exists ph, multi_thread_gemm mode kd hw mt sc lhs rhs m n k lo ro result = Some ph /\
    phases_ok ph m n (fun i j => result + kd_esz kd * (i * n + j)) (fun i j => kvalue kd fin lo ro k (f i) (g j)).
Proof.
  intros Hp Hp2 Hm Hn Hk Hmk Hnk Hmode Hfit HL HR Ha. unfold multi_thread_gemm. destruct (Z.eqb_spec m 1) as [->|Hm1].
  { apply multi_thread_gemv_ok; auto. }
  destruct (Z.eqb_spec n 1) as [->|Hn1].
  { destruct (multi_thread_gemv_ok hw mt sc rhs lhs m k ro lo result 1 g f) as (ph & E & (logs & El & H)); auto.
    exists ph. split; [exact E|]. exists logs. split; [exact El|]. intros tr Htr. destruct (H tr Htr) as (vis & Ev & N & HI).
    exists (map (fun q => (snd q, fst q)) vis). split; [|split].
    - rewrite map_map, Ev. apply map_ext_in. intros [i j] Hij. cbn [fst snd]. apply HI in Hij. destruct Hij as [Hi Hj].
      assert (i = 0) by lia. subst i. f_equal; [lia|]. unfold kvalue. rewrite dot_comm. reflexivity.
    - apply Injective_map_NoDup; [|exact N]. intros [a b] [c d] E2. inversion E2. reflexivity.
    - intros i j. rewrite in_map_iff. split.
      + intros [[a b] [E2 H2]]. inversion E2; subst. apply HI in H2. unfold rect in *. lia.
      + intros H2. exists (j, i). split; [reflexivity|]. apply HI. unfold rect in *. lia. }
  assert (Hmn : m * n <= m * n * k) by nia.
  assert (Hops : forall m' n', 1 <= m' <= m -> 1 <= n' <= n -> op_runs (gemm_operation mode kd lo ro) (kvalue kd fin lo ro k) m' n' k).
  { intros m' n' Hm' Hn'. eapply gemm_operation_runs; eauto; try lia; [nia|]. unfold gemm_fits in *. nia. }
  destruct (Z.eqb_spec (ResolveMaxThreads hw mt) 1) as [E1|E1].
  - destruct (Hops m n ltac:(lia) ltac:(lia) 0 lhs rhs result n f g sc [] HL HR) as (s1 & t1 & E & L).
    { cbn [gemm_operation op_scratch]. eapply alloc_sub; [exact Ha|lia|lia]. }
    eapply alone_ok; [exact E|exact L].
  - apply (MTMM_ok mode (gemm_operation mode kd lo ro) (kvalue kd fin lo ro k)); auto; try lia.
    + cbn. lia.
    + destruct Hmode as [Hw|Hw]; [left; exact Hw|right; split; [|exact Hw]]. clear - Hmn Hw. lia.
    + rewrite resolve_twice. exact Ha.
Qed.
End Entry.
