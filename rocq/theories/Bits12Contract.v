(* Bits12Contract.v: the AArch32 kernel for products below 4096 and the kernel contract *)
From Verif Require Import Base BaseLemmas CommonModel CommonProofs PackModel PackSimdModel GemmSpec ComputeModel KernelSpec KernelProofs
  OutputModel OutputSpec UnpackModel GemmModel GemmContract GemmProofs3 GemmProofs4 GemmExample SimdModel SimdProofs X86Model X86Contract X86Example
  ArmModel ArmKernels Arm64Blocks Arm32Bits12 ArmContract ArmExample.

(* kernel_neon.h 275-278; register size 16 (common.h 110-115) *)
Definition N12b_fmt : kernel_fmt :=
  mk_kernel_fmt (mk_side_fmt 4 2 CWidthMajor 3 FUint8) (mk_side_fmt 4 2 CWidthMajor 1 FUint8) 16.
(* The kernel, for any previous contents of the registers and of the local array
   (kernel_neon.h 281-660). *)
Definition N12b_kernel (junk : list reg) (t0 t1 : Z) (fl : aflags) (loc : mem) : kernel :=
  mk_kernel N12b_fmt (arm_Run true NEON_32_Kernel12x4Depth2Assuming12BitProducts_asm junk t0 t1 fl loc) neon_packer (Some Neon).
(* int32 global_accumulator ... [3 * 4 * 4]: the local array exists (kernel_neon.h 291) *)
Definition loc_ok (loc : mem) : Prop := forall k, 0 <= k < 48 -> loc k <> None.
Definition bits12 (x y : Z) : Prop := x * y < 4096.

Lemma loc_lh loc : loc_ok loc -> exists F, lh loc F.
Proof.
  intros H. exists (fun rc t i => match loc (16 * rc + 4 * t + i) with Some v => v | None => 0 end).
  intros rc t i Hrc Ht Hi. specialize (H (16 * rc + 4 * t + i) ltac:(lia)). destruct (loc (16 * rc + 4 * t + i)); [reflexivity|contradiction].
Qed.
Lemma N12b_run junk t0 t1 fl loc result dst cs lhs lp rhs rp start run A B old : length junk = 16%nat -> loc_ok loc -> 0 < run -> (2 | run) ->
  (forall r c r' c', 0 <= r < 12 -> 0 <= c < 4 -> 0 <= r' < 12 -> 0 <= c' < 4 ->
     r * 1 + c * cs = r' * 1 + c' * cs -> r = r' /\ c = c') ->
  holds_run (kf_lhs N12b_fmt) lhs lp run A -> holds_run (kf_rhs N12b_fmt) rhs rp run B ->
  (forall r c, 0 <= r < 12 -> 0 <= c < 4 -> result (dst + (r * 1 + c * cs)) = Some (old r c)) ->
  exists result', k_run (N12b_kernel junk t0 t1 fl loc) result dst 1 cs lhs lp rhs rp start run = Some result' /\
    (exists W, (forall r c, 0 <= r < 12 -> 0 <= c < 4 -> 0 <= W r c <= 65025 * run /\
        ((forall d, 0 <= d < run -> bits12 (A r d) (B c d)) -> W r c = sumZ (fun d => A r d * B c d) 0 run)) /\
      forall r c, 0 <= r < 12 -> 0 <= c < 4 -> result' (dst + (r * 1 + c * cs)) =
       Some (wrapS 32 ((if start =? 0 then 0 else old r c) + W r c))) /\
    (forall a, (forall r c, 0 <= r < 12 -> 0 <= c < 4 -> a <> dst + (r * 1 + c * cs)) -> result' a = result a).
Proof.
  intros Hj Hloc Hrun Hdiv Hinj HA HB Hold.
  destruct (K12b_ok lhs rhs lp rp run dst start cs result A B old HA HB Hinj Hold junk t0 t1 fl
    (Z.to_nat (300 * (run + 3))) loc Hj) as (s' & E & HV & HF); [destruct Hdiv; lia|exact Hdiv|exact (loc_lh loc Hloc)|lia|].
  exists (as_dst s'). split; [|split; [exact HV|exact HF]].
  unfold N12b_kernel, arm_Run. cbn [k_run Z.eqb Pos.eqb negb orb guard bind]. rewrite E. reflexivity.
Qed.
Lemma N12b_correct m junk t0 t1 fl loc : length junk = 16%nat -> loc_ok loc -> kernel_correct_on bits12 m (N12b_kernel junk t0 t1 fl loc).
Proof.
  intros Hj Hloc. unfold kernel_correct_on, kernel_run_correct. change (k_fmt (N12b_kernel junk t0 t1 fl loc)) with N12b_fmt. cbv zeta.
  intros result dst cs lhs lp rhs rp start run A B old Hst Hrun Hdiv Hinj HA HB Hold Hm.
  change (kDepth N12b_fmt) with 2 in *. change (kRows N12b_fmt) with 12 in *. change (kCols N12b_fmt) with 4 in *.
  pose proof (RoundUp_ge (kf_reg N12b_fmt) run ltac:(reflexivity)) as Hge.
  destruct (N12b_run junk t0 t1 fl loc result dst cs lhs lp rhs rp start run A B old Hj Hloc Hrun Hdiv Hinj
    (holds_run_le _ _ _ _ _ _ Hge HA) (holds_run_le _ _ _ _ _ _ Hge HB) Hold) as (res & E & (W & HW & HV) & HF).
  exists res. split; [exact E|]. split; [|exact HF]. intros r c Hr Hc. eexists. split; [apply HV; assumption|].
  destruct (HW r c Hr Hc) as [W1 W2]. split.
  - destruct Hm as [?|[H1 H2]]; [left; assumption|right].
    assert (B2 : Z.abs ((if start =? 0 then 0 else old r c) + W r c) <=
      (if start =? 0 then 0 else Z.abs (old r c)) + 255 * 255 * RoundUp (kf_reg N12b_fmt) run) by (destruct (start =? 0); lia).
    rewrite wrapS_small; [exact B2|lia|]. unfold int_min, int_max. change (2 ^ (32 - 1)) with (2 ^ 31).
    destruct (Z.eqb_spec start 0) as [->|N0]; [lia|]. destruct H2 as [?|H2]; [contradiction|]. pose proof (H2 r c Hr Hc). lia.
  - intros Hok _. rewrite W2 by exact Hok. reflexivity.
Qed.
Lemma N12b_junk junk t0 t1 fl loc junk' t0' t1' fl' loc' result dst cs lhs lp rhs rp start run A B old :
  length junk = 16%nat -> length junk' = 16%nat -> loc_ok loc -> loc_ok loc' -> 0 < run -> (2 | run) ->
  (forall r c r' c', 0 <= r < 12 -> 0 <= c < 4 -> 0 <= r' < 12 -> 0 <= c' < 4 ->
     r * 1 + c * cs = r' * 1 + c' * cs -> r = r' /\ c = c') ->
  holds_run (kf_lhs N12b_fmt) lhs lp run A -> holds_run (kf_rhs N12b_fmt) rhs rp run B ->
  (forall r c d, 0 <= r < 12 -> 0 <= c < 4 -> 0 <= d < run -> bits12 (A r d) (B c d)) ->
  (forall r c, 0 <= r < 12 -> 0 <= c < 4 -> result (dst + (r * 1 + c * cs)) = Some (old r c)) ->
  exists r1 r2, k_run (N12b_kernel junk t0 t1 fl loc) result dst 1 cs lhs lp rhs rp start run = Some r1 /\
    k_run (N12b_kernel junk' t0' t1' fl' loc') result dst 1 cs lhs lp rhs rp start run = Some r2 /\ forall a, r1 a = r2 a.
Proof.
  intros Hj Hj' Hl Hl' Hrun Hdiv Hinj HA HB Hok Hold.
  destruct (N12b_run junk t0 t1 fl loc result dst cs lhs lp rhs rp start run A B old Hj Hl Hrun Hdiv Hinj HA HB Hold) as (r1 & E1 & (W1 & G1 & V1) & F1).
  destruct (N12b_run junk' t0' t1' fl' loc' result dst cs lhs lp rhs rp start run A B old Hj' Hl' Hrun Hdiv Hinj HA HB Hold) as (r2 & E2 & (W2 & G2 & V2) & F2).
  exists r1, r2. split; [exact E1|]. split; [exact E2|]. intros a.
  destruct (entry_dec 12 4 dst cs a) as [(r & c & Hr & Hc & ->) | H].
  - rewrite V1, V2 by assumption. rewrite (proj2 (G1 r c Hr Hc)), (proj2 (G2 r c Hr Hc)) by (intros d Hd; now apply Hok). reflexivity.
  - rewrite F1, F2 by exact H. reflexivity.
Qed.
Lemma N12b_fmt_ok : kernel_fmt_ok N12b_fmt.
Proof. repeat split; cbn; try lia; try discriminate; exists 8; reflexivity. Qed.
Lemma N12b_packs m junk t0 t1 fl loc : packs_correct m (N12b_kernel junk t0 t1 fl loc).
Proof. apply neon_packs; [exact N12b_fmt_ok|reflexivity|reflexivity]. Qed.
Lemma gemm_bits12 m junk t0 t1 fl loc t hw max_num_threads sc scs lhs rhs result lo ro p L R LO RO out before :
  length junk = 16%nat -> loc_ok loc ->
  tuning_ok t -> threads_ok N12b_fmt hw max_num_threads (Z.max (mm_rows result) (mm_cols result)) ->
  gemm_problem m (N12b_kernel junk t0 t1 fl loc) (op_mem lhs) (op_map lhs) (op_mem rhs) (op_map rhs) result lo ro p L R LO RO out ->
  (forall r c d, 0 <= r < mm_rows result -> 0 <= c < mm_cols result -> 0 <= d < mm_cols (op_map lhs) -> L r d * R d c < 4096) ->
  valid_view before result ->
  exists phases, DispatchGemmShape m (N12b_kernel junk t0 t1 fl loc) t hw max_num_threads sc scs lhs rhs result lo ro p = Some phases /\
    (exists trace, execution phases trace) /\
    forall trace, execution phases trace ->
      exists after, perform trace before = Some after /\ stored before after result out.
Proof.
  intros Hj Hl Ht Hth HP HL Hv. apply (gemm_on bits12 m) with (L := L) (R := R) (LO := LO) (RO := RO); try assumption.
  - exact N12b_fmt_ok.
  - apply correct_usable_on. now apply N12b_correct.
  - apply N12b_packs.
  - unfold bits12. lia.
  - intros r c d Hr Hc Hd. pose proof (HL r c d Hr Hc Hd). cbn [N12b_kernel k_fmt N12b_fmt kf_lhs kf_rhs sf_zp sf_kind].
    unfold bits12, sf_zp. cbn [sf_kind]. lia.
Qed.

(* products of 4096: 16 levels of one parity sum up to 65536 *)
Definition a64 (_ _ : Z) : Z := 64.
Lemma N12b_any_pair_refuted : exists junk t0 t1 fl loc, length junk = 16%nat /\ loc_ok loc /\
  ~ kernel_correct_on (fun x y => x * y <= 4096) Wrap (N12b_kernel junk t0 t1 fl loc).
Proof.
  exists (zregs 16), 1, 2, afl0, loc0. split; [reflexivity|]. split.
  { intros k Hk. unfold loc0. replace ((0 <=? k) && (k <? 48)) with true by lia. discriminate. }
  intros H.
  destruct (H kx_dst 20 13 (pk_block (kf_lhs N12b_fmt) 32 a64) 100 (pk_block (kf_rhs N12b_fmt) 32 a64) 100 0 32 a64 a64 (kx_old 13))
    as (res & E & HV & _).
  - lia.
  - lia.
  - exists 16. reflexivity.
  - intros r c r' c' Hr Hc Hr' Hc'. change (kRows (k_fmt (N12b_kernel (zregs 16) 1 2 afl0 loc0))) with 12 in *. apply (kx_inj 12 13); try assumption; lia.
  - apply (pk_holds (kf_lhs N12b_fmt) 16 a64); try (cbn; lia); [discriminate|reflexivity].
  - apply (pk_holds (kf_rhs N12b_fmt) 16 a64); try (cbn; lia); [discriminate|reflexivity].
  - intros r c Hr Hc. apply (kx_dst_ok 12 13); [lia|lia|exact Hr|]. change (kCols (k_fmt (N12b_kernel (zregs 16) 1 2 afl0 loc0))) with 4 in Hc. lia.
  - left. reflexivity.
  - destruct (HV 0 0) as (v & Ev & _ & Hv); [split; reflexivity || discriminate|split; reflexivity || discriminate|].
    assert (E1 : forall d, 0 <= d < 32 -> a64 0 d * a64 0 d <= 4096) by (intros; unfold a64; lia).
    specialize (Hv E1). assert (E2 : forall d, 32 <= d < RoundUp 16 32 -> a64 0 d = 0 /\ a64 0 d = 0).
    { change (RoundUp 16 32) with 32. intros d Hd. lia. }
    specialize (Hv E2).
    assert (X : option_map (fun m => m 20) (k_run (N12b_kernel (zregs 16) 1 2 afl0 loc0) kx_dst 20 1 13
      (pk_block (kf_lhs N12b_fmt) 32 a64) 100 (pk_block (kf_rhs N12b_fmt) 32 a64) 100 0 32) = Some (Some 0)) by (vm_compute; reflexivity).
    rewrite E in X. cbn [option_map] in X. injection X as X. change (20 + (0 * 1 + 0 * 13)) with 20 in Ev.
    rewrite X in Ev. injection Ev as <-. vm_compute in Hv. discriminate.
Qed.
(* operands of 6 bits each *)
Definition b6A (w d : Z) : Z := (w * 37 + d * 11 + 60) mod 64.
Definition b6B (c d : Z) : Z := (c * 29 + d * 23 + 63) mod 64.
Lemma b6A_byte w d : operand_value false (b6A w d mod 256) = b6A w d.
Proof. apply byte_ok. unfold b6A. pose proof (Z.mod_pos_bound (w * 37 + d * 11 + 60) 64 ltac:(lia)). lia. Qed.
Lemma b6B_byte w d : operand_value false (b6B w d mod 256) = b6B w d.
Proof. apply byte_ok. unfold b6B. pose proof (Z.mod_pos_bound (w * 29 + d * 23 + 63) 64 ltac:(lia)). lia. Qed.
Lemma b6_ok r c d : bits12 (b6A r d) (b6B c d).
Proof.
  unfold bits12, b6A, b6B. pose proof (Z.mod_pos_bound (r * 37 + d * 11 + 60) 64 ltac:(lia)).
  pose proof (Z.mod_pos_bound (c * 29 + d * 23 + 63) 64 ltac:(lia)). nia.
Qed.
Lemma loc0_ok : loc_ok loc0.
Proof. intros k Hk. unfold loc0. replace ((0 <=? k) && (k <? 48)) with true by lia. discriminate. Qed.
