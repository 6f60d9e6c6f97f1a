(* EightBitProofs.v: the GEMMs started by the EightBitIntGemm entry points. *)
From Coq Require Import SpecFloat Permutation.
From Verif Require Import Base BaseLemmas CommonModel PackModel PackProofs4 GemmSpec FixedPointModel FixedPointSpec FixedPointProofs ComputeModel KernelSpec
  OutputModel OutputSpec UnpackModel GemmModel GemmContract GemmProofs3 GemmProofs4 GemmProofs5 EightBitModel EightBitSpec.

Lemma run_cases_one x impl : run_cases x impl handled_cases = impl (x_ta x) (x_tb x) (x_tc x).
Proof.
  unfold handled_cases. cbn [run_cases]. destruct (x_ta x), (x_tb x), (x_tc x); cbn [Bool.eqb andb bind];
    match goal with |- bind ?i _ = _ => destruct i as [s|]; cbn [bind]; [rewrite ?app_nil_r|]; reflexivity
                  | |- _ => idtac end;
    match goal with |- context [impl ?a ?b ?c] => destruct (impl a b c) as [s|]; cbn [bind app]; rewrite ?app_nil_r; reflexivity end.
Qed.

Lemma result_addr x base r c : entry_addr (result_of (x_tc x) x base) r c = base + position (x_tc x) (x_ldc x) r c.
Proof. unfold entry_addr, result_of, position, order_of. cbn. destruct (x_tc x); lia. Qed.

Section Problem.
Variables (e : env) (settings : Z -> Prop) (M : memories) (x : args).
Hypothesis Ho : args_ok e settings M x.
Hypothesis Hb : holds_bytes M.
Let A := bytes M (fst (x_a x)).
Let B := bytes M (fst (x_b x)).
Let L r d := byte_at A (a_pos x r d).
Let R d c := byte_at B (b_pos x d c).

Lemma lhs_holds : holds_matrix (op_mem (lhs_of (x_ta x) x A)) (op_map (lhs_of (x_ta x) x A)) L.
Proof.
  intros r d Hr Hd. cbn in Hr, Hd. unfold L, A, byte_at. cbn [lhs_of op_mem op_map].
  assert (E : entry_addr (mk_map (snd (x_a x)) (x_m x) (x_k x) (x_lda x) (order_of (x_ta x))) r d = a_pos x r d).
  { unfold entry_addr, a_pos, position, order_of. cbn. destruct (x_ta x); lia. }
  rewrite E. pose proof (ao_a _ _ _ _ Ho r d Hr Hd) as H. destruct (bytes M (fst (x_a x)) (a_pos x r d)) eqn:F; [|congruence].
  split; [reflexivity|]. apply (Hb _ _ _ F).
Qed.
Lemma rhs_holds : holds_matrix (op_mem (rhs_of (x_tb x) x B)) (op_map (rhs_of (x_tb x) x B)) R.
Proof.
  intros d c Hd Hc. cbn in Hd, Hc. unfold R, B, byte_at. cbn [rhs_of op_mem op_map].
  assert (E : entry_addr (mk_map (snd (x_b x)) (x_k x) (x_n x) (x_ldb x) (order_of (x_tb x))) d c = b_pos x d c).
  { unfold entry_addr, b_pos, position, order_of. cbn. destruct (x_tb x); lia. }
  rewrite E. pose proof (ao_b _ _ _ _ Ho d c Hd Hc) as H. destruct (bytes M (fst (x_b x)) (b_pos x d c)) eqn:F; [|congruence].
  split; [reflexivity|]. apply (Hb _ _ _ F).
Qed.
Lemma product_eq r c : offset_product L R (fun _ => x_aoff x) (fun _ => x_boff x) (x_k x) r c = product x M r c.
Proof. reflexivity. Qed.

Lemma product_bound Ml Mr r c : acc_safe e x Ml Mr -> 0 <= r < x_m x -> 0 <= c < x_n x -> 
  Z.abs (product x M r c) <= Ml * Mr * x_k x.
Proof.
  intros (H1 & H2 & _ & H3 & H4) Hr Hc. unfold product. destruct (ao_sizes _ _ _ _ Ho) as (_ & _ & Hk).
  apply GemmProofs.sumZ_abs; [exact Hk|nia|]. intros d Hd.
  pose proof (lhs_holds r d Hr ltac:(exact Hd)) as [_ P1]. pose proof (rhs_holds d c ltac:(exact Hd) Hc) as [_ P2].
  apply GemmProofs.abs_mul_le; [unfold L, A in P1; cbn in P1; lia|unfold R, B in P2; cbn in P2; lia].
Qed.

Hypothesis He : env_ok e.

Lemma problem_for base p out : 0 < x_m x -> 0 < x_n x -> 0 < x_k x ->
  (e_mode e = Wrap \/ exists Ml Mr, acc_safe e x Ml Mr) ->
  (forall r c, 0 <= r < x_m x -> 0 <= c < x_n x -> pipe_at (e_mode e) p r c (wrapS 32 (product x M r c)) = Some (out r c)) ->
  vector_safe (k_out (e_kernel e)) (e_mode e) p (x_m x) (x_n x) (fun _ => x_aoff x) (fun _ => x_boff x) (product x M) ->
  gemm_problem (e_mode e) (e_kernel e)
    (op_mem (lhs_of (x_ta x) x A)) (op_map (lhs_of (x_ta x) x A)) (op_mem (rhs_of (x_tb x) x B)) (op_map (rhs_of (x_tb x) x B))
    (result_of (x_tc x) x base) (VDup VCol (x_aoff x) (x_m x)) (VDup VRow (x_boff x) (x_n x)) p L R (fun _ => x_aoff x) (fun _ => x_boff x) out.
Proof.
  intros Hm Hn Hk Ha Hp Hv. destruct He as (_ & _ & _ & _ & U1 & U2). constructor; try reflexivity.
  - cbn. auto.
  - apply holds_uint8_lhs; [exact U1|exact lhs_holds].
  - apply holds_uint8_rhs; [exact U2|exact rhs_holds].
  - split; [exact I|]. split; [cbn; lia|]. reflexivity.
  - split; [exact I|]. split; [cbn; lia|]. reflexivity.
  - destruct Ha as [?|(Ml & Mr & H1 & H2 & H3 & H4 & H5)]; [left; assumption|right]. exists Ml, Mr. rewrite (in_min_uint8 _ U1). cbn.
    split; [exact H1|]. split; [exact H2|]. split; [exact H3|]. split; intros; lia.
  - exact Hp.
  - exact Hv.
  - rewrite !in_min_uint8 by assumption. reflexivity.
Qed.

Lemma config_for base mnt : settings mnt ->
  gemm_config_ok (e_mode e) (e_kernel e) (e_tuning e) (e_hw e) mnt (result_of (x_tc x) x base).
Proof.
  intros Hs. destruct He as (H1 & H2 & H2p & H3 & _). split; [exact H1|]. split; [exact H2|]. split; [exact H2p|]. split; [exact H3|].
  apply (ao_threads _ _ _ _ Ho). exact Hs.
Qed.

(* the stores of a GEMM: none, or those of every entry once *)
Definition good_stores (base : Z) (out : Z -> Z -> Z) (s : stores) : Prop :=
  forall tr, execution s tr ->
    if x_k x =? 0 then tr = [] else stores_once (result_of (x_tc x) x base) out tr.

Lemma dispatch_for base p out mnt sc scs : settings mnt ->
  (e_mode e = Wrap \/ exists Ml Mr, acc_safe e x Ml Mr) ->
  (forall r c, 0 <= r < x_m x -> 0 <= c < x_n x -> pipe_at (e_mode e) p r c (wrapS 32 (product x M r c)) = Some (out r c)) ->
  vector_safe (k_out (e_kernel e)) (e_mode e) p (x_m x) (x_n x) (fun _ => x_aoff x) (fun _ => x_boff x) (product x M) ->
  exists s, GemmWithOutputPipeline (e_mode e) (e_kernel e) (e_tuning e) (e_hw e) mnt sc scs
    (lhs_of (x_ta x) x A) (rhs_of (x_tb x) x B) (result_of (x_tc x) x base) (x_aoff x) (x_boff x) p = Some s /\ good_stores base out s.
Proof.
  intros Hs Ha Hp Hv. destruct (ao_sizes _ _ _ _ Ho) as (Zm & Zn & Zk). unfold GemmWithOutputPipeline.
  destruct (Z.eq_dec (x_m x) 0) as [E1|E1]; [|destruct (Z.eq_dec (x_n x) 0) as [E2|E2]; [|destruct (Z.eq_dec (x_k x) 0) as [E3|E3]]].
  4: { assert (P1 : 0 < x_m x) by lia. assert (P2 : 0 < x_n x) by lia. assert (P3 : 0 < x_k x) by lia.
    pose proof (problem_for base p out P1 P2 P3 Ha Hp Hv) as HP. 
    destruct (gemm_stores (e_mode e) (e_kernel e) (e_tuning e) (e_hw e) mnt sc scs _ _ _ _ _ _ _ _ _ _ _ (config_for base mnt Hs) HP) as (ph & E & HS).
    exists ph. split; [exact E|]. intros tr X. replace (x_k x =? 0) with false by lia. apply HS. exact X. }
  all: exists []; split; [unfold DispatchGemmShape; cbv zeta; unfold guard; cbn [lhs_of rhs_of result_of op_map mm_cols mm_rows]; rewrite Z.eqb_refl; cbn [bind];
    replace ((x_m x =? 0) || (x_n x =? 0) || (x_k x =? 0)) with true by lia; reflexivity|];
    intros tr X; inversion X; subst; destruct (x_k x =? 0) eqn:K; [reflexivity|try lia]; try reflexivity.
  - exists []. cbn. split; [reflexivity|]. split; [constructor|]. intros r c. split; [contradiction|lia].
  - exists []. cbn. split; [reflexivity|]. split; [constructor|]. intros r c. split; [contradiction|lia].
Qed.
End Problem.

Lemma acc_exact e settings M x Ml Mr r c : args_ok e settings M x -> holds_bytes M -> env_ok e -> acc_safe e x Ml Mr -> 
  0 <= r < x_m x -> 0 <= c < x_n x -> wrapS 32 (product x M r c) = product x M r c.
Proof.
  intros Ho Hb He Hs Hr Hc. pose proof (product_bound e settings M x Ho Hb Ml Mr r c Hs Hr Hc) as H.
  destruct Hs as (H1 & H2 & H3 & _). destruct He as ((_ & _ & _ & Hk & _) & _).
  apply wrapS_small; [lia|]. change (int_min 32) with (-2147483648). change (int_max 32) with 2147483647.
  change (2 ^ 31 - 1) with 2147483647 in H3.
  assert (Ml * Mr * x_k x <= Ml * Mr * (x_k x + kf_reg (k_fmt (e_kernel e)) - 1)) by (apply Z.mul_le_mono_nonneg_l; nia). lia.
Qed.

Lemma u8_stores e settings M x off mult shift mnt sc scs : env_ok e -> holds_bytes M ->
  call_ok e settings M (CallU8 x off mult shift) -> settings mnt ->
  exists s, EightBitIntGemm_u8 e mnt sc scs x (bytes M (fst (x_a x))) (bytes M (fst (x_b x))) off mult shift = Some s /\
    good_stores x (snd (x_c x)) (u8_result x M off mult shift) s.
Proof.
  intros He Hb (Ho & Hc & _ & _ & (Hsh & Ho1 & Ho2) & Ha) Hs. unfold EightBitIntGemm_u8. rewrite run_cases_one. unfold EightBitIntGemmImpl.
  destruct (dispatch_for e settings M x Ho Hb He (snd (x_c x)) (MakeStandardOutputPipeline off mult shift) (u8_result x M off mult shift) mnt sc scs Hs)
    as (s & E & G).
  - destruct Ha as [?|(Ml & Mr & ? & _)]; [left; assumption|right; exists Ml, Mr; assumption].
  - intros r c Hr Hcc. rewrite standard_at; [|exact Hsh|].
    + unfold u8_result. f_equal. f_equal. f_equal.
      rewrite <- (wrapS_mul_l 32 (wrapS 32 (product x M r c) + off)), wrapS_add_l, wrapS_mul_l by lia. reflexivity.
    + destruct Ha as [?|(Ml & Mr & H1 & H2)]; [left; assumption|right].
      rewrite (acc_exact e settings M x Ml Mr) by assumption. apply H2. apply (product_bound e settings); assumption.
  - apply standard_safe; try assumption; apply (ao_ints _ _ _ _ Ho).
  - exists s. split; [|exact G]. unfold Gemm. rewrite E. pose proof (ao_bits _ _ _ _ Ho). destruct (x_bits x); [reflexivity|reflexivity|congruence].
Qed.
Lemma i32_stores e settings M x scale mnt sc scs : env_ok e -> holds_bytes M ->
  call_ok e settings M (CallF32 x scale) -> settings mnt ->
  exists s, EightBitIntGemm_i32 e mnt sc scs x (bytes M (fst (x_a x))) (bytes M (fst (x_b x))) = Some s /\
    good_stores x 0 (fun r c => wrapS 32 (product x M r c)) s.
Proof.
  intros He Hb (Ho & _ & _ & _ & Ha) Hs. unfold EightBitIntGemm_i32. rewrite run_cases_one. unfold EightBitIntGemmInt32Impl.
  destruct (dispatch_for e settings M x Ho Hb He 0 [] (fun r c => wrapS 32 (product x M r c)) mnt sc scs Hs Ha) as (s & E & G).
  - reflexivity.
  - destruct (k_out (e_kernel e)) as [T|]; [|exact I]. destruct (ao_ints _ _ _ _ Ho) as [I1 I2]. split; [discriminate|]. split; [intros; exact I1|].
    split; [intros; exact I2|]. intros; exact I.
  - exists s. split; [|exact G]. rewrite E. pose proof (ao_bits _ _ _ _ Ho). destruct (x_bits x); [reflexivity|reflexivity|congruence].
Qed.
