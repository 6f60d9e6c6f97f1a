(* ArmContract.v: the NEON kernels meet the kernel contract *)
From Verif Require Import Base BaseLemmas CommonModel CommonProofs PackModel PackSimdModel GemmSpec ComputeModel KernelSpec KernelProofs
  OutputModel OutputSpec UnpackModel GemmModel GemmContract GemmProofs3 GemmProofs4 SimdModel SimdProofs X86Model X86Contract
  ArmModel ArmKernels Arm64Blocks Arm64Dot ArmInt8 Arm64Int8 Arm32Blocks Arm32Int8.

(* formats: kernel_neon.h 34-37, 669-673, 943-947, 1291-1294, 1665-1668.  CellFormat's
   default order is DepthMajor (kernel.h 127).  The register size is 16
   (common.h 110-115). *)
Definition N12x4_fmt : kernel_fmt :=
  mk_kernel_fmt (mk_side_fmt 4 2 CDepthMajor 3 FUint8) (mk_side_fmt 4 2 CDepthMajor 1 FUint8) 16.
Definition N4x2_fmt : kernel_fmt :=
  mk_kernel_fmt (mk_side_fmt 4 16 CWidthMajor 1 FInt8) (mk_side_fmt 2 16 CWidthMajor 1 FInt8) 16.
Definition N12x8_fmt : kernel_fmt :=
  mk_kernel_fmt (mk_side_fmt 4 2 CDepthMajor 3 FUint8) (mk_side_fmt 4 2 CDepthMajor 2 FUint8) 16.
Definition Ndot_fmt : kernel_fmt :=
  mk_kernel_fmt (mk_side_fmt 4 4 CWidthMajor 3 FUint8) (mk_side_fmt 4 4 CWidthMajor 2 FUint8) 16.
Definition N4x4_fmt : kernel_fmt :=
  mk_kernel_fmt (mk_side_fmt 4 16 CWidthMajor 1 FInt8) (mk_side_fmt 4 16 CWidthMajor 1 FInt8) 16.
(* The kernels, for any previous contents of the registers.  The two int8
   kernels do not assert the row stride. *)
Definition N12x4_kernel (junk : list reg) (t0 t1 : Z) (fl : aflags) (loc : mem) : kernel :=
  mk_kernel N12x4_fmt (arm_Run true NEON_32_Kernel12x4Depth2_asm junk t0 t1 fl loc) neon_packer (Some Neon).
Definition N4x2_kernel (junk : list reg) (t0 t1 : Z) (fl : aflags) (loc : mem) : kernel :=
  mk_kernel N4x2_fmt (arm_Run false NEON_32bit_GEMM_Int8Operands_LhsNonzero_asm junk t0 t1 fl loc) neon_packer (Some Neon).
Definition N12x8_kernel (junk : list reg) (t0 t1 : Z) (fl : aflags) (loc : mem) : kernel :=
  mk_kernel N12x8_fmt (arm_Run true NEON_64_Kernel12x8Depth2_asm junk t0 t1 fl loc) neon_packer (Some Neon).
Definition Ndot_kernel (junk : list reg) (t0 t1 : Z) (fl : aflags) (loc : mem) : kernel :=
  mk_kernel Ndot_fmt (arm_Run true NEON_64_Kernel12x8Depth4_dotprod_asm junk t0 t1 fl loc) neon_packer (Some Neon).
Definition N4x4_kernel (junk : list reg) (t0 t1 : Z) (fl : aflags) (loc : mem) : kernel :=
  mk_kernel N4x4_fmt (arm_Run false NEON_64bit_GEMM_Int8Operands_LhsNonzero_asm junk t0 t1 fl loc) neon_packer (Some Neon).

Lemma holds_run_le f b p n n' A : n <= n' -> holds_run f b p n' A -> holds_run f b p n A.
Proof. intros H HA w d Hw Hd. apply HA; lia. Qed.
Lemma RoundUp_ge k n : 0 < k -> n <= RoundUp k n.
Proof. intros H. destruct (RoundUp_spec k n H) as (q & E & G). lia. Qed.
(* the operands of a signed run *)
Lemma signed_run f b p run A w d : sf_signed f = true -> holds_run f b p run A -> 0 <= w < sf_width f -> 0 <= d < run ->
  -128 <= A w d <= 127.
Proof.
  intros Hs H Hw Hd. destruct (H w d Hw Hd) as (x & _ & Hx & <-). unfold operand_value. rewrite Hs.
  pose proof (wrapS_range 8 x ltac:(lia)) as R. unfold int_min, int_max in R. change (2 ^ (8 - 1)) with 128 in R. lia.
Qed.
(* the value specified by the contract, for the two int8 kernels *)
Lemma finish_contract8 m k lhs lp rhs rp start run A B old r c :
  kf_reg k = 16 -> sf_signed (kf_lhs k) = true -> sf_signed (kf_rhs k) = true ->
  holds_run (kf_lhs k) lhs lp (RoundUp (kf_reg k) run) A -> holds_run (kf_rhs k) rhs rp (RoundUp (kf_reg k) run) B ->
  0 <= r < kRows k -> 0 <= c < kCols k -> 0 < run -> (16 | run) ->
  (m = Wrap \/ (255 * 255 * RoundUp (kf_reg k) run <= 2 ^ 31 - 1 /\
       (start = 0 \/ forall r c, 0 <= r < kRows k -> 0 <= c < kCols k ->
          Z.abs (old r c) + 255 * 255 * RoundUp (kf_reg k) run <= 2 ^ 31 - 1))) ->
  let v := wrapS 32 ((if start =? 0 then 0 else old r c) + sumZ (blk8 A B r c) 0 (run / 16)) in
  (m = Wrap \/ Z.abs v <= (if start =? 0 then 0 else Z.abs (old r c)) + 255 * 255 * RoundUp (kf_reg k) run) /\
  ((forall d, 0 <= d < run -> not_both_min (A r d) (B c d)) ->
   (forall d, run <= d < RoundUp (kf_reg k) run -> A r d = 0 /\ B c d = 0) ->
   v = wrapS 32 ((if start =? 0 then 0 else old r c) + sumZ (fun d => A r d * B c d) 0 run)).
Proof.
  intros Hreg SL SR HA HB Hr Hc Hrun [q Hq] Hm v.
  pose proof (RoundUp_ge (kf_reg k) run ltac:(lia)) as Hge.
  assert (Eq : run / 16 = q) by lia. split.
  - destruct Hm as [?|[H1 H2]]; [left; assumption|right].
    pose proof (sumZ_bound (blk8 A B r c) 0 (run / 16) (-262144) 262144 ltac:(lia) (fun i _ => blk8_bound A B r c i)) as Bd.
    assert (B2 : Z.abs ((if start =? 0 then 0 else old r c) + sumZ (blk8 A B r c) 0 (run / 16)) <=
      (if start =? 0 then 0 else Z.abs (old r c)) + 255 * 255 * RoundUp (kf_reg k) run) by (destruct (start =? 0); lia).
    unfold v. rewrite wrapS_small; [exact B2|lia|]. unfold int_min, int_max. change (2 ^ (32 - 1)) with (2 ^ 31).
    destruct (Z.eqb_spec start 0) as [->|N0]; [lia|]. destruct H2 as [?|H2]; [contradiction|]. pose proof (H2 r c Hr Hc). lia.
  - intros Hok _. unfold v. f_equal. f_equal. rewrite Eq.
    replace run with (16 * q) by lia. apply blk8_sum; [lia|]. intros d Hd. split; [|split].
    + apply (signed_run (kf_lhs k) lhs lp (RoundUp (kf_reg k) run) A); [exact SL|exact HA|unfold sf_width, kRows in *; lia|lia].
    + apply (signed_run (kf_rhs k) rhs rp (RoundUp (kf_reg k) run) B); [exact SR|exact HB|unfold sf_width, kCols in *; lia|lia].
    + apply Hok. lia.
Qed.

(* what the program computes, for any previous contents of the registers *)
Lemma N12x4_run junk t0 t1 fl loc result dst cs lhs lp rhs rp start run A B old : length junk = 16%nat -> 0 < run -> (2 | run) ->
  (forall r c r' c', 0 <= r < 12 -> 0 <= c < 4 -> 0 <= r' < 12 -> 0 <= c' < 4 ->
     r * 1 + c * cs = r' * 1 + c' * cs -> r = r' /\ c = c') ->
  holds_run (kf_lhs N12x4_fmt) lhs lp run A -> holds_run (kf_rhs N12x4_fmt) rhs rp run B ->
  (forall r c, 0 <= r < 12 -> 0 <= c < 4 -> result (dst + (r * 1 + c * cs)) = Some (old r c)) ->
  exists result', k_run (N12x4_kernel junk t0 t1 fl loc) result dst 1 cs lhs lp rhs rp start run = Some result' /\
    (forall r c, 0 <= r < 12 -> 0 <= c < 4 -> result' (dst + (r * 1 + c * cs)) =
       Some (wrapS 32 ((if start =? 0 then 0 else old r c) + sumZ (fun d => A r d * B c d) 0 run))) /\
    (forall a, (forall r c, 0 <= r < 12 -> 0 <= c < 4 -> a <> dst + (r * 1 + c * cs)) -> result' a = result a).
Proof.
  intros Hj Hrun Hdiv Hinj HA HB Hold.
  destruct (K12x4_ok lhs rhs lp rp run dst start cs result loc A B old HA HB Hinj Hold junk t0 t1 fl
    (Z.to_nat (300 * (run + 3))) Hj) as (s' & E & HV & HF); [destruct Hdiv; lia|exact Hdiv|lia|].
  exists (as_dst s'). split; [|split; [exact HV|exact HF]].
  unfold N12x4_kernel, arm_Run. cbn [k_run Z.eqb Pos.eqb negb orb guard bind]. rewrite E. reflexivity.
Qed.
Lemma N12x4_correct m junk t0 t1 fl loc : length junk = 16%nat -> kernel_correct m (N12x4_kernel junk t0 t1 fl loc).
Proof.
  intros Hj. unfold kernel_correct, kernel_correct_on, kernel_run_correct. change (k_fmt (N12x4_kernel junk t0 t1 fl loc)) with N12x4_fmt. cbv zeta.
  intros result dst cs lhs lp rhs rp start run A B old Hst Hrun Hdiv Hinj HA HB Hold Hm.
  change (kDepth N12x4_fmt) with 2 in *.
  pose proof (RoundUp_ge (kf_reg N12x4_fmt) run ltac:(reflexivity)) as Hge.
  destruct (N12x4_run junk t0 t1 fl loc result dst cs lhs lp rhs rp start run A B old Hj Hrun Hdiv Hinj
    (holds_run_le _ _ _ _ _ _ Hge HA) (holds_run_le _ _ _ _ _ _ Hge HB) Hold) as (res & E & HV & HF).
  exists res. split; [exact E|]. split; [|exact HF]. intros r c Hr Hc. eexists. split; [apply HV; assumption|].
  apply (finish_contract m N12x4_fmt lhs lp rhs rp start run A B old r c run); try assumption; try reflexivity; split; [lia|exact Hge].
Qed.
(* previous register contents, flags and local memory do not influence the result *)
Lemma N12x4_junk junk t0 t1 fl loc junk' t0' t1' fl' loc' result dst cs lhs lp rhs rp start run A B old :
  length junk = 16%nat -> length junk' = 16%nat -> 0 < run -> (2 | run) ->
  (forall r c r' c', 0 <= r < 12 -> 0 <= c < 4 -> 0 <= r' < 12 -> 0 <= c' < 4 ->
     r * 1 + c * cs = r' * 1 + c' * cs -> r = r' /\ c = c') ->
  holds_run (kf_lhs N12x4_fmt) lhs lp run A -> holds_run (kf_rhs N12x4_fmt) rhs rp run B ->
  (forall r c, 0 <= r < 12 -> 0 <= c < 4 -> result (dst + (r * 1 + c * cs)) = Some (old r c)) ->
  exists r1 r2, k_run (N12x4_kernel junk t0 t1 fl loc) result dst 1 cs lhs lp rhs rp start run = Some r1 /\
    k_run (N12x4_kernel junk' t0' t1' fl' loc') result dst 1 cs lhs lp rhs rp start run = Some r2 /\ forall a, r1 a = r2 a.
Proof.
  intros Hj Hj' Hrun Hdiv Hinj HA HB Hold.
  destruct (N12x4_run junk t0 t1 fl loc result dst cs lhs lp rhs rp start run A B old Hj Hrun Hdiv Hinj HA HB Hold) as (r1 & E1 & V1 & F1).
  destruct (N12x4_run junk' t0' t1' fl' loc' result dst cs lhs lp rhs rp start run A B old Hj' Hrun Hdiv Hinj HA HB Hold) as (r2 & E2 & V2 & F2).
  exists r1, r2. split; [exact E1|]. split; [exact E2|]. intros a.
  destruct (entry_dec 12 4 dst cs a) as [(r & c & Hr & Hc & ->) | H].
  - rewrite V1, V2 by assumption. reflexivity.
  - rewrite F1, F2 by exact H. reflexivity.
Qed.
Lemma N12x4_fmt_ok : kernel_fmt_ok N12x4_fmt.
Proof. repeat split; cbn; try lia; try discriminate; exists 8; reflexivity. Qed.

(* what the program computes, for any previous contents of the registers *)
Lemma N12x8_run junk t0 t1 fl loc result dst cs lhs lp rhs rp start run A B old : length junk = 32%nat -> 0 < run -> (2 | run) ->
  (forall r c r' c', 0 <= r < 12 -> 0 <= c < 8 -> 0 <= r' < 12 -> 0 <= c' < 8 ->
     r * 1 + c * cs = r' * 1 + c' * cs -> r = r' /\ c = c') ->
  holds_run (kf_lhs N12x8_fmt) lhs lp run A -> holds_run (kf_rhs N12x8_fmt) rhs rp run B ->
  (forall r c, 0 <= r < 12 -> 0 <= c < 8 -> result (dst + (r * 1 + c * cs)) = Some (old r c)) ->
  exists result', k_run (N12x8_kernel junk t0 t1 fl loc) result dst 1 cs lhs lp rhs rp start run = Some result' /\
    (forall r c, 0 <= r < 12 -> 0 <= c < 8 -> result' (dst + (r * 1 + c * cs)) =
       Some (wrapS 32 ((if start =? 0 then 0 else old r c) + sumZ (fun d => A r d * B c d) 0 run))) /\
    (forall a, (forall r c, 0 <= r < 12 -> 0 <= c < 8 -> a <> dst + (r * 1 + c * cs)) -> result' a = result a).
Proof.
  intros Hj Hrun Hdiv Hinj HA HB Hold.
  destruct (K12x8_ok lhs rhs lp rp run dst start cs result loc A B old HA HB Hinj Hold junk t0 t1 fl
    (Z.to_nat (300 * (run + 3))) Hj) as (s' & E & HV & HF); [destruct Hdiv; lia|exact Hdiv|lia|].
  exists (as_dst s'). split; [|split; [exact HV|exact HF]].
  unfold N12x8_kernel, arm_Run. cbn [k_run Z.eqb Pos.eqb negb orb guard bind]. rewrite E. reflexivity.
Qed.
Lemma N12x8_correct m junk t0 t1 fl loc : length junk = 32%nat -> kernel_correct m (N12x8_kernel junk t0 t1 fl loc).
Proof.
  intros Hj. unfold kernel_correct, kernel_correct_on, kernel_run_correct. change (k_fmt (N12x8_kernel junk t0 t1 fl loc)) with N12x8_fmt. cbv zeta.
  intros result dst cs lhs lp rhs rp start run A B old Hst Hrun Hdiv Hinj HA HB Hold Hm.
  change (kDepth N12x8_fmt) with 2 in *.
  pose proof (RoundUp_ge (kf_reg N12x8_fmt) run ltac:(reflexivity)) as Hge.
  destruct (N12x8_run junk t0 t1 fl loc result dst cs lhs lp rhs rp start run A B old Hj Hrun Hdiv Hinj
    (holds_run_le _ _ _ _ _ _ Hge HA) (holds_run_le _ _ _ _ _ _ Hge HB) Hold) as (res & E & HV & HF).
  exists res. split; [exact E|]. split; [|exact HF]. intros r c Hr Hc. eexists. split; [apply HV; assumption|].
  apply (finish_contract m N12x8_fmt lhs lp rhs rp start run A B old r c run); try assumption; try reflexivity; split; [lia|exact Hge].
Qed.
(* previous register contents, flags and local memory do not influence the result *)
Lemma N12x8_junk junk t0 t1 fl loc junk' t0' t1' fl' loc' result dst cs lhs lp rhs rp start run A B old :
  length junk = 32%nat -> length junk' = 32%nat -> 0 < run -> (2 | run) ->
  (forall r c r' c', 0 <= r < 12 -> 0 <= c < 8 -> 0 <= r' < 12 -> 0 <= c' < 8 ->
     r * 1 + c * cs = r' * 1 + c' * cs -> r = r' /\ c = c') ->
  holds_run (kf_lhs N12x8_fmt) lhs lp run A -> holds_run (kf_rhs N12x8_fmt) rhs rp run B ->
  (forall r c, 0 <= r < 12 -> 0 <= c < 8 -> result (dst + (r * 1 + c * cs)) = Some (old r c)) ->
  exists r1 r2, k_run (N12x8_kernel junk t0 t1 fl loc) result dst 1 cs lhs lp rhs rp start run = Some r1 /\
    k_run (N12x8_kernel junk' t0' t1' fl' loc') result dst 1 cs lhs lp rhs rp start run = Some r2 /\ forall a, r1 a = r2 a.
Proof.
  intros Hj Hj' Hrun Hdiv Hinj HA HB Hold.
  destruct (N12x8_run junk t0 t1 fl loc result dst cs lhs lp rhs rp start run A B old Hj Hrun Hdiv Hinj HA HB Hold) as (r1 & E1 & V1 & F1).
  destruct (N12x8_run junk' t0' t1' fl' loc' result dst cs lhs lp rhs rp start run A B old Hj' Hrun Hdiv Hinj HA HB Hold) as (r2 & E2 & V2 & F2).
  exists r1, r2. split; [exact E1|]. split; [exact E2|]. intros a.
  destruct (entry_dec 12 8 dst cs a) as [(r & c & Hr & Hc & ->) | H].
  - rewrite V1, V2 by assumption. reflexivity.
  - rewrite F1, F2 by exact H. reflexivity.
Qed.
Lemma N12x8_fmt_ok : kernel_fmt_ok N12x8_fmt.
Proof. repeat split; cbn; try lia; try discriminate; exists 8; reflexivity. Qed.

(* what the program computes, for any previous contents of the registers *)
Lemma Ndot_run junk t0 t1 fl loc result dst cs lhs lp rhs rp start run A B old : length junk = 32%nat -> 0 < run -> (4 | run) ->
  (forall r c r' c', 0 <= r < 12 -> 0 <= c < 8 -> 0 <= r' < 12 -> 0 <= c' < 8 ->
     r * 1 + c * cs = r' * 1 + c' * cs -> r = r' /\ c = c') ->
  holds_run (kf_lhs Ndot_fmt) lhs lp run A -> holds_run (kf_rhs Ndot_fmt) rhs rp run B ->
  (forall r c, 0 <= r < 12 -> 0 <= c < 8 -> result (dst + (r * 1 + c * cs)) = Some (old r c)) ->
  exists result', k_run (Ndot_kernel junk t0 t1 fl loc) result dst 1 cs lhs lp rhs rp start run = Some result' /\
    (forall r c, 0 <= r < 12 -> 0 <= c < 8 -> result' (dst + (r * 1 + c * cs)) =
       Some (wrapS 32 ((if start =? 0 then 0 else old r c) + sumZ (fun d => A r d * B c d) 0 run))) /\
    (forall a, (forall r c, 0 <= r < 12 -> 0 <= c < 8 -> a <> dst + (r * 1 + c * cs)) -> result' a = result a).
Proof.
  intros Hj Hrun Hdiv Hinj HA HB Hold.
  destruct (Kdot_ok lhs rhs lp rp run dst start cs result loc A B old HA HB Hinj Hold junk t0 t1 fl
    (Z.to_nat (300 * (run + 3))) Hj) as (s' & E & HV & HF); [destruct Hdiv; lia|exact Hdiv|lia|].
  exists (as_dst s'). split; [|split; [exact HV|exact HF]].
  unfold Ndot_kernel, arm_Run. cbn [k_run Z.eqb Pos.eqb negb orb guard bind]. rewrite E. reflexivity.
Qed.
Lemma Ndot_correct m junk t0 t1 fl loc : length junk = 32%nat -> kernel_correct m (Ndot_kernel junk t0 t1 fl loc).
Proof.
  intros Hj. unfold kernel_correct, kernel_correct_on, kernel_run_correct. change (k_fmt (Ndot_kernel junk t0 t1 fl loc)) with Ndot_fmt. cbv zeta.
  intros result dst cs lhs lp rhs rp start run A B old Hst Hrun Hdiv Hinj HA HB Hold Hm.
  change (kDepth Ndot_fmt) with 4 in *.
  pose proof (RoundUp_ge (kf_reg Ndot_fmt) run ltac:(reflexivity)) as Hge.
  destruct (Ndot_run junk t0 t1 fl loc result dst cs lhs lp rhs rp start run A B old Hj Hrun Hdiv Hinj
    (holds_run_le _ _ _ _ _ _ Hge HA) (holds_run_le _ _ _ _ _ _ Hge HB) Hold) as (res & E & HV & HF).
  exists res. split; [exact E|]. split; [|exact HF]. intros r c Hr Hc. eexists. split; [apply HV; assumption|].
  apply (finish_contract m Ndot_fmt lhs lp rhs rp start run A B old r c run); try assumption; try reflexivity; split; [lia|exact Hge].
Qed.
(* previous register contents, flags and local memory do not influence the result *)
Lemma Ndot_junk junk t0 t1 fl loc junk' t0' t1' fl' loc' result dst cs lhs lp rhs rp start run A B old :
  length junk = 32%nat -> length junk' = 32%nat -> 0 < run -> (4 | run) ->
  (forall r c r' c', 0 <= r < 12 -> 0 <= c < 8 -> 0 <= r' < 12 -> 0 <= c' < 8 ->
     r * 1 + c * cs = r' * 1 + c' * cs -> r = r' /\ c = c') ->
  holds_run (kf_lhs Ndot_fmt) lhs lp run A -> holds_run (kf_rhs Ndot_fmt) rhs rp run B ->
  (forall r c, 0 <= r < 12 -> 0 <= c < 8 -> result (dst + (r * 1 + c * cs)) = Some (old r c)) ->
  exists r1 r2, k_run (Ndot_kernel junk t0 t1 fl loc) result dst 1 cs lhs lp rhs rp start run = Some r1 /\
    k_run (Ndot_kernel junk' t0' t1' fl' loc') result dst 1 cs lhs lp rhs rp start run = Some r2 /\ forall a, r1 a = r2 a.
Proof.
  intros Hj Hj' Hrun Hdiv Hinj HA HB Hold.
  destruct (Ndot_run junk t0 t1 fl loc result dst cs lhs lp rhs rp start run A B old Hj Hrun Hdiv Hinj HA HB Hold) as (r1 & E1 & V1 & F1).
  destruct (Ndot_run junk' t0' t1' fl' loc' result dst cs lhs lp rhs rp start run A B old Hj' Hrun Hdiv Hinj HA HB Hold) as (r2 & E2 & V2 & F2).
  exists r1, r2. split; [exact E1|]. split; [exact E2|]. intros a.
  destruct (entry_dec 12 8 dst cs a) as [(r & c & Hr & Hc & ->) | H].
  - rewrite V1, V2 by assumption. reflexivity.
  - rewrite F1, F2 by exact H. reflexivity.
Qed.
Lemma Ndot_fmt_ok : kernel_fmt_ok Ndot_fmt.
Proof. repeat split; cbn; try lia; try discriminate; exists 4; reflexivity. Qed.

(* what the program computes, for any previous contents of the registers *)
Lemma N4x2_run junk t0 t1 fl loc result dst cs lhs lp rhs rp start run A B old : length junk = 16%nat -> 0 < run -> (16 | run) ->
  (forall r c r' c', 0 <= r < 4 -> 0 <= c < 2 -> 0 <= r' < 4 -> 0 <= c' < 2 ->
     r * 1 + c * cs = r' * 1 + c' * cs -> r = r' /\ c = c') ->
  holds_run (kf_lhs N4x2_fmt) lhs lp run A -> holds_run (kf_rhs N4x2_fmt) rhs rp run B ->
  (forall r c, 0 <= r < 4 -> 0 <= c < 2 -> result (dst + (r * 1 + c * cs)) = Some (old r c)) ->
  exists result', k_run (N4x2_kernel junk t0 t1 fl loc) result dst 1 cs lhs lp rhs rp start run = Some result' /\
    (forall r c, 0 <= r < 4 -> 0 <= c < 2 -> result' (dst + (r * 1 + c * cs)) =
       Some (wrapS 32 ((if start =? 0 then 0 else old r c) + sumZ (blk8 A B r c) 0 (run / 16)))) /\
    (forall a, (forall r c, 0 <= r < 4 -> 0 <= c < 2 -> a <> dst + (r * 1 + c * cs)) -> result' a = result a).
Proof.
  intros Hj Hrun Hdiv Hinj HA HB Hold.
  destruct (K4x2_ok lhs rhs lp rp run dst start cs result loc A B old HA HB Hinj Hold junk t0 t1 fl
    (Z.to_nat (300 * (run + 3))) Hj) as (s' & E & HV & HF); [destruct Hdiv; lia|exact Hdiv|lia|].
  exists (as_dst s'). split; [|split; [exact HV|exact HF]].
  unfold N4x2_kernel, arm_Run. cbn [k_run Z.eqb Pos.eqb negb orb guard bind]. rewrite E. reflexivity.
Qed.
Lemma N4x2_correct m junk t0 t1 fl loc : length junk = 16%nat -> kernel_correct_on not_both_min m (N4x2_kernel junk t0 t1 fl loc).
Proof.
  intros Hj. unfold kernel_correct_on, kernel_run_correct. change (k_fmt (N4x2_kernel junk t0 t1 fl loc)) with N4x2_fmt. cbv zeta.
  intros result dst cs lhs lp rhs rp start run A B old Hst Hrun Hdiv Hinj HA HB Hold Hm.
  change (kDepth N4x2_fmt) with 16 in *.
  pose proof (RoundUp_ge (kf_reg N4x2_fmt) run ltac:(reflexivity)) as Hge.
  destruct (N4x2_run junk t0 t1 fl loc result dst cs lhs lp rhs rp start run A B old Hj Hrun Hdiv Hinj
    (holds_run_le _ _ _ _ _ _ Hge HA) (holds_run_le _ _ _ _ _ _ Hge HB) Hold) as (res & E & HV & HF).
  exists res. split; [exact E|]. split; [|exact HF]. intros r c Hr Hc. eexists. split; [apply HV; assumption|].
  apply (finish_contract8 m N4x2_fmt lhs lp rhs rp start run A B old r c); try assumption; reflexivity.
Qed.
(* previous register contents, flags and local memory do not influence the result *)
Lemma N4x2_junk junk t0 t1 fl loc junk' t0' t1' fl' loc' result dst cs lhs lp rhs rp start run A B old :
  length junk = 16%nat -> length junk' = 16%nat -> 0 < run -> (16 | run) ->
  (forall r c r' c', 0 <= r < 4 -> 0 <= c < 2 -> 0 <= r' < 4 -> 0 <= c' < 2 ->
     r * 1 + c * cs = r' * 1 + c' * cs -> r = r' /\ c = c') ->
  holds_run (kf_lhs N4x2_fmt) lhs lp run A -> holds_run (kf_rhs N4x2_fmt) rhs rp run B ->
  (forall r c, 0 <= r < 4 -> 0 <= c < 2 -> result (dst + (r * 1 + c * cs)) = Some (old r c)) ->
  exists r1 r2, k_run (N4x2_kernel junk t0 t1 fl loc) result dst 1 cs lhs lp rhs rp start run = Some r1 /\
    k_run (N4x2_kernel junk' t0' t1' fl' loc') result dst 1 cs lhs lp rhs rp start run = Some r2 /\ forall a, r1 a = r2 a.
Proof.
  intros Hj Hj' Hrun Hdiv Hinj HA HB Hold.
  destruct (N4x2_run junk t0 t1 fl loc result dst cs lhs lp rhs rp start run A B old Hj Hrun Hdiv Hinj HA HB Hold) as (r1 & E1 & V1 & F1).
  destruct (N4x2_run junk' t0' t1' fl' loc' result dst cs lhs lp rhs rp start run A B old Hj' Hrun Hdiv Hinj HA HB Hold) as (r2 & E2 & V2 & F2).
  exists r1, r2. split; [exact E1|]. split; [exact E2|]. intros a.
  destruct (entry_dec 4 2 dst cs a) as [(r & c & Hr & Hc & ->) | H].
  - rewrite V1, V2 by assumption. reflexivity.
  - rewrite F1, F2 by exact H. reflexivity.
Qed.
Lemma N4x2_fmt_ok : kernel_fmt_ok N4x2_fmt.
Proof. repeat split; cbn; try lia; try discriminate; exists 1; reflexivity. Qed.

(* what the program computes, for any previous contents of the registers *)
Lemma N4x4_run junk t0 t1 fl loc result dst cs lhs lp rhs rp start run A B old : length junk = 32%nat -> 0 < run -> (16 | run) ->
  (forall r c r' c', 0 <= r < 4 -> 0 <= c < 4 -> 0 <= r' < 4 -> 0 <= c' < 4 ->
     r * 1 + c * cs = r' * 1 + c' * cs -> r = r' /\ c = c') ->
  holds_run (kf_lhs N4x4_fmt) lhs lp run A -> holds_run (kf_rhs N4x4_fmt) rhs rp run B ->
  (forall r c, 0 <= r < 4 -> 0 <= c < 4 -> result (dst + (r * 1 + c * cs)) = Some (old r c)) ->
  exists result', k_run (N4x4_kernel junk t0 t1 fl loc) result dst 1 cs lhs lp rhs rp start run = Some result' /\
    (forall r c, 0 <= r < 4 -> 0 <= c < 4 -> result' (dst + (r * 1 + c * cs)) =
       Some (wrapS 32 ((if start =? 0 then 0 else old r c) + sumZ (blk8 A B r c) 0 (run / 16)))) /\
    (forall a, (forall r c, 0 <= r < 4 -> 0 <= c < 4 -> a <> dst + (r * 1 + c * cs)) -> result' a = result a).
Proof.
  intros Hj Hrun Hdiv Hinj HA HB Hold.
  destruct (K4x4_ok lhs rhs lp rp run dst start cs result loc A B old HA HB Hinj Hold junk t0 t1 fl
    (Z.to_nat (300 * (run + 3))) Hj) as (s' & E & HV & HF); [destruct Hdiv; lia|exact Hdiv|lia|].
  exists (as_dst s'). split; [|split; [exact HV|exact HF]].
  unfold N4x4_kernel, arm_Run. cbn [k_run Z.eqb Pos.eqb negb orb guard bind]. rewrite E. reflexivity.
Qed.
Lemma N4x4_correct m junk t0 t1 fl loc : length junk = 32%nat -> kernel_correct_on not_both_min m (N4x4_kernel junk t0 t1 fl loc).
Proof.
  intros Hj. unfold kernel_correct_on, kernel_run_correct. change (k_fmt (N4x4_kernel junk t0 t1 fl loc)) with N4x4_fmt. cbv zeta.
  intros result dst cs lhs lp rhs rp start run A B old Hst Hrun Hdiv Hinj HA HB Hold Hm.
  change (kDepth N4x4_fmt) with 16 in *.
  pose proof (RoundUp_ge (kf_reg N4x4_fmt) run ltac:(reflexivity)) as Hge.
  destruct (N4x4_run junk t0 t1 fl loc result dst cs lhs lp rhs rp start run A B old Hj Hrun Hdiv Hinj
    (holds_run_le _ _ _ _ _ _ Hge HA) (holds_run_le _ _ _ _ _ _ Hge HB) Hold) as (res & E & HV & HF).
  exists res. split; [exact E|]. split; [|exact HF]. intros r c Hr Hc. eexists. split; [apply HV; assumption|].
  apply (finish_contract8 m N4x4_fmt lhs lp rhs rp start run A B old r c); try assumption; reflexivity.
Qed.
(* previous register contents, flags and local memory do not influence the result *)
Lemma N4x4_junk junk t0 t1 fl loc junk' t0' t1' fl' loc' result dst cs lhs lp rhs rp start run A B old :
  length junk = 32%nat -> length junk' = 32%nat -> 0 < run -> (16 | run) ->
  (forall r c r' c', 0 <= r < 4 -> 0 <= c < 4 -> 0 <= r' < 4 -> 0 <= c' < 4 ->
     r * 1 + c * cs = r' * 1 + c' * cs -> r = r' /\ c = c') ->
  holds_run (kf_lhs N4x4_fmt) lhs lp run A -> holds_run (kf_rhs N4x4_fmt) rhs rp run B ->
  (forall r c, 0 <= r < 4 -> 0 <= c < 4 -> result (dst + (r * 1 + c * cs)) = Some (old r c)) ->
  exists r1 r2, k_run (N4x4_kernel junk t0 t1 fl loc) result dst 1 cs lhs lp rhs rp start run = Some r1 /\
    k_run (N4x4_kernel junk' t0' t1' fl' loc') result dst 1 cs lhs lp rhs rp start run = Some r2 /\ forall a, r1 a = r2 a.
Proof.
  intros Hj Hj' Hrun Hdiv Hinj HA HB Hold.
  destruct (N4x4_run junk t0 t1 fl loc result dst cs lhs lp rhs rp start run A B old Hj Hrun Hdiv Hinj HA HB Hold) as (r1 & E1 & V1 & F1).
  destruct (N4x4_run junk' t0' t1' fl' loc' result dst cs lhs lp rhs rp start run A B old Hj' Hrun Hdiv Hinj HA HB Hold) as (r2 & E2 & V2 & F2).
  exists r1, r2. split; [exact E1|]. split; [exact E2|]. intros a.
  destruct (entry_dec 4 4 dst cs a) as [(r & c & Hr & Hc & ->) | H].
  - rewrite V1, V2 by assumption. reflexivity.
  - rewrite F1, F2 by exact H. reflexivity.
Qed.
Lemma N4x4_fmt_ok : kernel_fmt_ok N4x4_fmt.
Proof. repeat split; cbn; try lia; try discriminate; exists 1; reflexivity. Qed.

(* ------------------------------------------------------------------ *)
(* a whole GEMM on a kernel that is correct on some pairs of values only *)
Lemma gemm_on ok m K t hw mnt sc scs lhs rhs result lo ro p L R LO RO out before :
  kernel_fmt_ok (k_fmt K) -> kernel_usable_on ok m K -> packs_correct m K -> ok 0 0 ->
  tuning_ok t -> threads_ok (k_fmt K) hw mnt (Z.max (mm_rows result) (mm_cols result)) ->
  gemm_problem m K (op_mem lhs) (op_map lhs) (op_mem rhs) (op_map rhs) result lo ro p L R LO RO out ->
  (forall r c d, 0 <= r < mm_rows result -> 0 <= c < mm_cols result -> 0 <= d < mm_cols (op_map lhs) ->
     ok (L r d - sf_zp (kf_lhs (k_fmt K))) (R d c - sf_zp (kf_rhs (k_fmt K))) /\
     ok (R d c - sf_zp (kf_lhs (k_fmt K))) (L r d - sf_zp (kf_rhs (k_fmt K)))) ->
  valid_view before result ->
  exists phases, DispatchGemmShape m K t hw mnt sc scs lhs rhs result lo ro p = Some phases /\
    (exists trace, execution phases trace) /\
    forall trace, execution phases trace ->
      exists after, perform trace before = Some after /\ stored before after result out.
Proof.
  intros Hk HK HKp H0 Ht Hth HP Hok Hv.
  destruct (Dispatch_on_spec ok m K lhs rhs result lo ro p L R LO RO out t hw mnt sc scs Hk HK HKp H0 HP Hok Ht Hth) as (phases & E & HC).
  exists phases. split; [exact E|]. split; [exists (flat phases); apply execution_seq|].
  intros tr Hx. apply stores_once_stored; [exact Hv|]. eapply stores_once_perm; [exact (execution_perm _ _ Hx)|].
  apply covers_stores_once. exact HC.
Qed.

(* the uint8 kernels of kernel_neon.h, and the int8 ones *)
Inductive neon_uint8 : kernel -> Prop :=
  | nu_12x4 : forall junk t0 t1 fl loc, length junk = 16%nat -> neon_uint8 (N12x4_kernel junk t0 t1 fl loc)
  | nu_12x8 : forall junk t0 t1 fl loc, length junk = 32%nat -> neon_uint8 (N12x8_kernel junk t0 t1 fl loc)
  | nu_dot : forall junk t0 t1 fl loc, length junk = 32%nat -> neon_uint8 (Ndot_kernel junk t0 t1 fl loc).
Inductive neon_int8 : kernel -> Prop :=
  | ni_4x2 : forall junk t0 t1 fl loc, length junk = 16%nat -> neon_int8 (N4x2_kernel junk t0 t1 fl loc)
  | ni_4x4 : forall junk t0 t1 fl loc, length junk = 32%nat -> neon_int8 (N4x4_kernel junk t0 t1 fl loc).
Lemma neon_uint8_correct m K : neon_uint8 K -> kernel_correct m K.
Proof. intros [? ? ? ? ? H|? ? ? ? ? H|? ? ? ? ? H]; [now apply N12x4_correct|now apply N12x8_correct|now apply Ndot_correct]. Qed.
Lemma neon_int8_correct m K : neon_int8 K -> kernel_correct_on not_both_min m K.
Proof. intros [? ? ? ? ? H|? ? ? ? ? H]; [now apply N4x2_correct|now apply N4x4_correct]. Qed.
Lemma neon_uint8_packs m K : neon_uint8 K -> packs_correct m K.
Proof. intros H. apply neon_packs; destruct H; first [reflexivity|exact N12x4_fmt_ok|exact N12x8_fmt_ok|exact Ndot_fmt_ok]. Qed.
Lemma neon_int8_packs m K : neon_int8 K -> packs_correct m K.
Proof. intros H. apply neon_packs; destruct H; first [reflexivity|exact N4x2_fmt_ok|exact N4x4_fmt_ok]. Qed.
Lemma gemm_neon m K t hw max_num_threads sc scs lhs rhs result lo ro p L R LO RO out before :
  neon_uint8 K ->
  tuning_ok t -> threads_ok (k_fmt K) hw max_num_threads (Z.max (mm_rows result) (mm_cols result)) ->
  gemm_problem m K (op_mem lhs) (op_map lhs) (op_mem rhs) (op_map rhs) result lo ro p L R LO RO out ->
  valid_view before result ->
  exists phases, DispatchGemmShape m K t hw max_num_threads sc scs lhs rhs result lo ro p = Some phases /\
    (exists trace, execution phases trace) /\
    forall trace, execution phases trace ->
      exists after, perform trace before = Some after /\ stored before after result out.
Proof.
  intros HK Ht Hth HP Hv. apply (gemm_correct m K) with (L := L) (R := R) (LO := LO) (RO := RO); try assumption.
  split; [destruct HK; [exact N12x4_fmt_ok|exact N12x8_fmt_ok|exact Ndot_fmt_ok]|].
  split; [apply correct_usable; now apply neon_uint8_correct|]. split; [now apply neon_uint8_packs|]. split; assumption.
Qed.
Lemma gemm_neon_int8 m K t hw max_num_threads sc scs lhs rhs result lo ro p L R LO RO out before :
  neon_int8 K ->
  tuning_ok t -> threads_ok (k_fmt K) hw max_num_threads (Z.max (mm_rows result) (mm_cols result)) ->
  gemm_problem m K (op_mem lhs) (op_map lhs) (op_mem rhs) (op_map rhs) result lo ro p L R LO RO out ->
  (forall r d, 0 <= r < mm_rows result -> 0 <= d < mm_cols (op_map lhs) -> L r d <> 0) ->
  valid_view before result ->
  exists phases, DispatchGemmShape m K t hw max_num_threads sc scs lhs rhs result lo ro p = Some phases /\
    (exists trace, execution phases trace) /\
    forall trace, execution phases trace ->
      exists after, perform trace before = Some after /\ stored before after result out.
Proof.
  intros HK Ht Hth HP HL Hv. apply (gemm_on not_both_min m K) with (L := L) (R := R) (LO := LO) (RO := RO); try assumption.
  - destruct HK; [exact N4x2_fmt_ok|exact N4x4_fmt_ok].
  - apply correct_usable_on. now apply neon_int8_correct.
  - now apply neon_int8_packs.
  - left. discriminate.
  - intros r c d Hr Hc Hd. pose proof (HL r d Hr Hd).
    replace (sf_zp (kf_lhs (k_fmt K))) with 128 by (destruct HK; reflexivity).
    replace (sf_zp (kf_rhs (k_fmt K))) with 128 by (destruct HK; reflexivity). unfold not_both_min. lia.
Qed.
Lemma two_products x1 y1 x2 y2 : -128 <= x1 <= 127 -> -128 <= y1 <= 127 -> -128 <= x2 <= 127 -> -128 <= y2 <= 127 ->
  x1 <> -128 -> x2 <> -128 -> - 2 ^ 15 <= x1 * y1 + x2 * y2 <= 2 ^ 15 - 1.
Proof. intros. change (2 ^ 15) with 32768. nia. Qed.
