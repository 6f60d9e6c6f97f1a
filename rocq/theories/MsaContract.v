(* MsaContract.v: the MSA kernels meet the kernel contract *)
From Verif Require Import Base BaseLemmas CommonModel CommonProofs PackModel PackSimdModel PackMsaModel PackMsaProofs GemmSpec ComputeModel
  KernelSpec KernelProofs OutputModel OutputSpec UnpackModel GemmModel GemmContract GemmProofs3 GemmProofs4 SimdModel SimdProofs X86Model X86Contract
  ArmModel ArmKernels ArmInt8 ArmContract MsaModel MsaKernels MsaProofs MsaBlocks MsaInt8.

(* formats: kernel_msa.h 45-47 and 282-285.  The register size is 16 (common.h 110-115). *)
Definition M12x8_fmt : kernel_fmt :=
  mk_kernel_fmt (mk_side_fmt 4 2 CWidthMajor 3 FUint8) (mk_side_fmt 4 2 CWidthMajor 2 FUint8) 16.
Definition M4x4_fmt : kernel_fmt :=
  mk_kernel_fmt (mk_side_fmt 4 16 CWidthMajor 1 FInt8) (mk_side_fmt 4 16 CWidthMajor 1 FInt8) 16.
(* The kernels, for any previous contents of the registers.  The output code is
   that of output_msa.h, with any of its three variants of the widest stores. *)
Definition M12x8_kernel (asm : mips_asm) (junk : list reg) (t0 t1 : Z) : kernel :=
  mk_kernel M12x8_fmt (msa_Run true MSA_Kernel12x8Depth2_asm junk t0 t1) msa_packer (Some (Mips asm)).
Definition M4x4_kernel (asm : mips_asm) (junk : list reg) (t0 t1 : Z) : kernel :=
  mk_kernel M4x4_fmt (msa_Run false MSA_GEMM_Int8Operands_LhsNonzero_asm junk t0 t1) msa_packer (Some (Mips asm)).

(* the value specified by the contract, for the two int8 kernels *)
Lemma finish_contractA m k lhs lp rhs rp start run A B old r c :
  kf_reg k = 16 -> sf_signed (kf_lhs k) = true -> sf_signed (kf_rhs k) = true ->
  holds_run (kf_lhs k) lhs lp (RoundUp (kf_reg k) run) A -> holds_run (kf_rhs k) rhs rp (RoundUp (kf_reg k) run) B ->
  0 <= r < kRows k -> 0 <= c < kCols k -> 0 < run -> (16 | run) ->
  (m = Wrap \/ (255 * 255 * RoundUp (kf_reg k) run <= 2 ^ 31 - 1 /\
       (start = 0 \/ forall r c, 0 <= r < kRows k -> 0 <= c < kCols k ->
          Z.abs (old r c) + 255 * 255 * RoundUp (kf_reg k) run <= 2 ^ 31 - 1))) ->
  let v := wrapS 32 ((if start =? 0 then 0 else old r c) + sumZ (blkA A B r c) 0 (run / 16)) in
  (m = Wrap \/ Z.abs v <= (if start =? 0 then 0 else Z.abs (old r c)) + 255 * 255 * RoundUp (kf_reg k) run) /\
  ((forall d, 0 <= d < run -> not_both_min (A r d) (B c d)) ->
   (forall d, run <= d < RoundUp (kf_reg k) run -> A r d = 0 /\ B c d = 0) ->
   v = wrapS 32 ((if start =? 0 then 0 else old r c) + sumZ (fun d => A r d * B c d) 0 run)).
Proof.
  intros Hreg SL SR HA HB Hr Hc Hrun [q Hq] Hm v.
  pose proof (RoundUp_ge (kf_reg k) run ltac:(lia)) as Hge.
  assert (Eq : run / 16 = q) by lia. split.
  - destruct Hm as [?|[H1 H2]]; [left; assumption|right].
    pose proof (sumZ_bound (blkA A B r c) 0 (run / 16) (-262144) 262144 ltac:(lia) (fun i _ => blkA_bound A B r c i)) as Bd.
    assert (B2 : Z.abs ((if start =? 0 then 0 else old r c) + sumZ (blkA A B r c) 0 (run / 16)) <=
      (if start =? 0 then 0 else Z.abs (old r c)) + 255 * 255 * RoundUp (kf_reg k) run) by (destruct (start =? 0); lia).
    unfold v. rewrite wrapS_small; [exact B2|lia|]. unfold int_min, int_max. change (2 ^ (32 - 1)) with (2 ^ 31).
    destruct (Z.eqb_spec start 0) as [->|N0]; [lia|]. destruct H2 as [?|H2]; [contradiction|]. pose proof (H2 r c Hr Hc). lia.
  - intros Hok _. unfold v. f_equal. f_equal. rewrite Eq.
    replace run with (16 * q) by lia. apply blkA_sum; [lia|]. intros d Hd. split; [|split].
    + apply (signed_run (kf_lhs k) lhs lp (RoundUp (kf_reg k) run) A); [exact SL|exact HA|unfold sf_width, kRows in *; lia|lia].
    + apply (signed_run (kf_rhs k) rhs rp (RoundUp (kf_reg k) run) B); [exact SR|exact HB|unfold sf_width, kCols in *; lia|lia].
    + apply Hok. lia.
Qed.

(* what the program computes, for any previous contents of the registers *)
Lemma M12x8_run asm junk t0 t1 result dst cs lhs lp rhs rp start run A B old : length junk = 32%nat -> 0 < run -> (2 | run) ->
  (forall r c r' c', 0 <= r < 12 -> 0 <= c < 8 -> 0 <= r' < 12 -> 0 <= c' < 8 ->
     r * 1 + c * cs = r' * 1 + c' * cs -> r = r' /\ c = c') ->
  holds_run (kf_lhs M12x8_fmt) lhs lp run A -> holds_run (kf_rhs M12x8_fmt) rhs rp run B ->
  (forall r c, 0 <= r < 12 -> 0 <= c < 8 -> result (dst + (r * 1 + c * cs)) = Some (old r c)) ->
  exists result', k_run (M12x8_kernel asm junk t0 t1) result dst 1 cs lhs lp rhs rp start run = Some result' /\
    (forall r c, 0 <= r < 12 -> 0 <= c < 8 -> result' (dst + (r * 1 + c * cs)) =
       Some (wrapS 32 ((if start =? 0 then 0 else old r c) + sumZ (fun d => A r d * B c d) 0 run))) /\
    (forall a, (forall r c, 0 <= r < 12 -> 0 <= c < 8 -> a <> dst + (r * 1 + c * cs)) -> result' a = result a).
Proof.
  intros Hj Hrun Hdiv Hinj HA HB Hold.
  destruct (M12x8_ok lhs rhs lp rp run dst start cs result A B old (4 * (dst + cs)) (4 * (dst + cs * 2)) (4 * (dst + cs * 3)) HA HB Hinj Hold junk t0 t1
    (Z.to_nat (300 * (run + 3))) Hj) as (s' & E & HV & HF); [destruct Hdiv; lia|exact Hdiv|lia|].
  exists (ms_dst s'). split; [|split; [exact HV|exact HF]].
  unfold M12x8_kernel, msa_Run. cbn [k_run Z.eqb Pos.eqb negb orb guard bind]. rewrite E. reflexivity.
Qed.
Lemma M12x8_correct m asm junk t0 t1 : length junk = 32%nat -> kernel_correct m (M12x8_kernel asm junk t0 t1).
Proof.
  intros Hj. unfold kernel_correct, kernel_correct_on, kernel_run_correct. change (k_fmt (M12x8_kernel asm junk t0 t1)) with M12x8_fmt. cbv zeta.
  intros result dst cs lhs lp rhs rp start run A B old Hst Hrun Hdiv Hinj HA HB Hold Hm.
  change (kDepth M12x8_fmt) with 2 in *.
  pose proof (RoundUp_ge (kf_reg M12x8_fmt) run ltac:(reflexivity)) as Hge.
  destruct (M12x8_run asm junk t0 t1 result dst cs lhs lp rhs rp start run A B old Hj Hrun Hdiv Hinj
    (holds_run_le _ _ _ _ _ _ Hge HA) (holds_run_le _ _ _ _ _ _ Hge HB) Hold) as (res & E & HV & HF).
  exists res. split; [exact E|]. split; [|exact HF]. intros r c Hr Hc. eexists. split; [apply HV; assumption|].
  apply (finish_contract m M12x8_fmt lhs lp rhs rp start run A B old r c run); try assumption; try reflexivity; split; [lia|exact Hge].
Qed.
(* previous register contents do not influence the result *)
Lemma M12x8_junk asm junk t0 t1 junk' t0' t1' result dst cs lhs lp rhs rp start run A B old :
  length junk = 32%nat -> length junk' = 32%nat -> 0 < run -> (2 | run) ->
  (forall r c r' c', 0 <= r < 12 -> 0 <= c < 8 -> 0 <= r' < 12 -> 0 <= c' < 8 ->
     r * 1 + c * cs = r' * 1 + c' * cs -> r = r' /\ c = c') ->
  holds_run (kf_lhs M12x8_fmt) lhs lp run A -> holds_run (kf_rhs M12x8_fmt) rhs rp run B ->
  (forall r c, 0 <= r < 12 -> 0 <= c < 8 -> result (dst + (r * 1 + c * cs)) = Some (old r c)) ->
  exists r1 r2, k_run (M12x8_kernel asm junk t0 t1) result dst 1 cs lhs lp rhs rp start run = Some r1 /\
    k_run (M12x8_kernel asm junk' t0' t1') result dst 1 cs lhs lp rhs rp start run = Some r2 /\ forall a, r1 a = r2 a.
Proof.
  intros Hj Hj' Hrun Hdiv Hinj HA HB Hold.
  destruct (M12x8_run asm junk t0 t1 result dst cs lhs lp rhs rp start run A B old Hj Hrun Hdiv Hinj HA HB Hold) as (r1 & E1 & V1 & F1).
  destruct (M12x8_run asm junk' t0' t1' result dst cs lhs lp rhs rp start run A B old Hj' Hrun Hdiv Hinj HA HB Hold) as (r2 & E2 & V2 & F2).
  exists r1, r2. split; [exact E1|]. split; [exact E2|]. intros a.
  destruct (entry_dec 12 8 dst cs a) as [(r & c & Hr & Hc & ->) | H].
  - rewrite V1, V2 by assumption. reflexivity.
  - rewrite F1, F2 by exact H. reflexivity.
Qed.
Lemma M12x8_fmt_ok : kernel_fmt_ok M12x8_fmt.
Proof. repeat split; cbn; try lia; try discriminate; exists 8; reflexivity. Qed.

(* what the program computes, for any previous contents of the registers *)
Lemma M4x4_run asm junk t0 t1 result dst cs lhs lp rhs rp start run A B old : length junk = 32%nat -> 0 < run -> (16 | run) ->
  (forall r c r' c', 0 <= r < 4 -> 0 <= c < 4 -> 0 <= r' < 4 -> 0 <= c' < 4 ->
     r * 1 + c * cs = r' * 1 + c' * cs -> r = r' /\ c = c') ->
  holds_run (kf_lhs M4x4_fmt) lhs lp run A -> holds_run (kf_rhs M4x4_fmt) rhs rp run B ->
  (forall r c, 0 <= r < 4 -> 0 <= c < 4 -> result (dst + (r * 1 + c * cs)) = Some (old r c)) ->
  exists result', k_run (M4x4_kernel asm junk t0 t1) result dst 1 cs lhs lp rhs rp start run = Some result' /\
    (forall r c, 0 <= r < 4 -> 0 <= c < 4 -> result' (dst + (r * 1 + c * cs)) =
       Some (wrapS 32 ((if start =? 0 then 0 else old r c) + sumZ (blkA A B r c) 0 (run / 16)))) /\
    (forall a, (forall r c, 0 <= r < 4 -> 0 <= c < 4 -> a <> dst + (r * 1 + c * cs)) -> result' a = result a).
Proof.
  intros Hj Hrun Hdiv Hinj HA HB Hold.
  destruct (M4x4_ok lhs rhs lp rp run dst start cs result A B old HA HB Hinj Hold junk t0 t1
    (Z.to_nat (300 * (run + 3))) Hj) as (s' & E & HV & HF); [destruct Hdiv; lia|exact Hdiv|lia|].
  exists (ms_dst s'). split; [|split; [exact HV|exact HF]].
  unfold M4x4_kernel, msa_Run. cbn [k_run Z.eqb Pos.eqb negb orb guard bind]. rewrite E. reflexivity.
Qed.
Lemma M4x4_correct m asm junk t0 t1 : length junk = 32%nat -> kernel_correct_on not_both_min m (M4x4_kernel asm junk t0 t1).
Proof.
  intros Hj. unfold kernel_correct_on, kernel_run_correct. change (k_fmt (M4x4_kernel asm junk t0 t1)) with M4x4_fmt. cbv zeta.
  intros result dst cs lhs lp rhs rp start run A B old Hst Hrun Hdiv Hinj HA HB Hold Hm.
  change (kDepth M4x4_fmt) with 16 in *.
  pose proof (RoundUp_ge (kf_reg M4x4_fmt) run ltac:(reflexivity)) as Hge.
  destruct (M4x4_run asm junk t0 t1 result dst cs lhs lp rhs rp start run A B old Hj Hrun Hdiv Hinj
    (holds_run_le _ _ _ _ _ _ Hge HA) (holds_run_le _ _ _ _ _ _ Hge HB) Hold) as (res & E & HV & HF).
  exists res. split; [exact E|]. split; [|exact HF]. intros r c Hr Hc. eexists. split; [apply HV; assumption|].
  apply (finish_contractA m M4x4_fmt lhs lp rhs rp start run A B old r c); try assumption; reflexivity.
Qed.
(* previous register contents do not influence the result *)
Lemma M4x4_junk asm junk t0 t1 junk' t0' t1' result dst cs lhs lp rhs rp start run A B old :
  length junk = 32%nat -> length junk' = 32%nat -> 0 < run -> (16 | run) ->
  (forall r c r' c', 0 <= r < 4 -> 0 <= c < 4 -> 0 <= r' < 4 -> 0 <= c' < 4 ->
     r * 1 + c * cs = r' * 1 + c' * cs -> r = r' /\ c = c') ->
  holds_run (kf_lhs M4x4_fmt) lhs lp run A -> holds_run (kf_rhs M4x4_fmt) rhs rp run B ->
  (forall r c, 0 <= r < 4 -> 0 <= c < 4 -> result (dst + (r * 1 + c * cs)) = Some (old r c)) ->
  exists r1 r2, k_run (M4x4_kernel asm junk t0 t1) result dst 1 cs lhs lp rhs rp start run = Some r1 /\
    k_run (M4x4_kernel asm junk' t0' t1') result dst 1 cs lhs lp rhs rp start run = Some r2 /\ forall a, r1 a = r2 a.
Proof.
  intros Hj Hj' Hrun Hdiv Hinj HA HB Hold.
  destruct (M4x4_run asm junk t0 t1 result dst cs lhs lp rhs rp start run A B old Hj Hrun Hdiv Hinj HA HB Hold) as (r1 & E1 & V1 & F1).
  destruct (M4x4_run asm junk' t0' t1' result dst cs lhs lp rhs rp start run A B old Hj' Hrun Hdiv Hinj HA HB Hold) as (r2 & E2 & V2 & F2).
  exists r1, r2. split; [exact E1|]. split; [exact E2|]. intros a.
  destruct (entry_dec 4 4 dst cs a) as [(r & c & Hr & Hc & ->) | H].
  - rewrite V1, V2 by assumption. reflexivity.
  - rewrite F1, F2 by exact H. reflexivity.
Qed.
Lemma M4x4_fmt_ok : kernel_fmt_ok M4x4_fmt.
Proof. repeat split; cbn; try lia; try discriminate; exists 1; reflexivity. Qed.

(* ---- whole GEMMs ---- *)
Lemma msa_packs m K : kernel_fmt_ok (k_fmt K) -> k_pack K = msa_packer -> kf_reg (k_fmt K) = 16 -> packs_correct m K.
Proof.
  intros (K1&K2&K3&K4&K5) E E16. unfold packs_correct. rewrite E16 in *. rewrite E.
  split; apply msa_packer_correct; try assumption. rewrite <- K3. exact K5.
Qed.
Lemma gemm_msa m asm junk t0 t1 t hw max_num_threads sc scs lhs rhs result lo ro p L R LO RO out before :
  length junk = 32%nat -> let K := M12x8_kernel asm junk t0 t1 in
  tuning_ok t -> threads_ok (k_fmt K) hw max_num_threads (Z.max (mm_rows result) (mm_cols result)) ->
  gemm_problem m K (op_mem lhs) (op_map lhs) (op_mem rhs) (op_map rhs) result lo ro p L R LO RO out ->
  valid_view before result ->
  exists phases, DispatchGemmShape m K t hw max_num_threads sc scs lhs rhs result lo ro p = Some phases /\
    (exists trace, execution phases trace) /\
    forall trace, execution phases trace ->
      exists after, perform trace before = Some after /\ stored before after result out.
Proof.
  intros Hj K Ht Hth HP Hv. apply (gemm_correct m K) with (L := L) (R := R) (LO := LO) (RO := RO); try assumption.
  split; [exact M12x8_fmt_ok|].
  split; [apply correct_usable; now apply M12x8_correct|]. split; [apply msa_packs; [exact M12x8_fmt_ok|reflexivity|reflexivity]|]. split; assumption.
Qed.
Lemma gemm_msa_int8 m asm junk t0 t1 t hw max_num_threads sc scs lhs rhs result lo ro p L R LO RO out before :
  length junk = 32%nat -> let K := M4x4_kernel asm junk t0 t1 in
  tuning_ok t -> threads_ok (k_fmt K) hw max_num_threads (Z.max (mm_rows result) (mm_cols result)) ->
  gemm_problem m K (op_mem lhs) (op_map lhs) (op_mem rhs) (op_map rhs) result lo ro p L R LO RO out ->
  (forall r d, 0 <= r < mm_rows result -> 0 <= d < mm_cols (op_map lhs) -> L r d <> 0) ->
  valid_view before result ->
  exists phases, DispatchGemmShape m K t hw max_num_threads sc scs lhs rhs result lo ro p = Some phases /\
    (exists trace, execution phases trace) /\
    forall trace, execution phases trace ->
      exists after, perform trace before = Some after /\ stored before after result out.
Proof.
  intros Hj K Ht Hth HP HL Hv. apply (gemm_on not_both_min m K) with (L := L) (R := R) (LO := LO) (RO := RO); try assumption.
  - exact M4x4_fmt_ok.
  - apply correct_usable_on. now apply M4x4_correct.
  - apply msa_packs; [exact M4x4_fmt_ok|reflexivity|reflexivity].
  - left. discriminate.
  - intros r c d Hr Hc Hd. pose proof (HL r d Hr Hd).
    change (sf_zp (kf_lhs (k_fmt K))) with 128. change (sf_zp (kf_rhs (k_fmt K))) with 128. unfold not_both_min. lia.
Qed.
