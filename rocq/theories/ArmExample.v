(* ArmExample.v: concrete packed blocks for the NEON kernel theorems *)
From Verif Require Import Base BaseLemmas CommonModel PackModel GemmSpec ComputeModel KernelSpec OutputModel OutputSpec UnpackModel
  GemmModel GemmContract GemmProofs4 GemmExample SimdModel SimdProofs X86Model X86Contract X86Example ArmModel ArmKernels ArmInt8 ArmContract.

(* the packed block at 100 of an operand A, bytes modulo 256 (depth-major and
   width-major cells) *)
Definition pk_block (f : side_fmt) (levels : Z) (A : Z -> Z -> Z) : mem := fun a =>
  let size := sf_cw f * sf_cd f in
  let j := a - 100 in
  let q := j / size in
  let o := j mod size in
  let '(w, d) := match sf_order f with
    | CDepthMajor => (o mod sf_cw f, o / sf_cw f)
    | _ => (o / sf_cd f, o mod sf_cd f)
    end in
  if (0 <=? j) && (j <? sf_width f * levels) then
    Some (A (q mod sf_cells f * sf_cw f + w) (q / sf_cells f * sf_cd f + d) mod 256)
  else None.
Lemma split_div a n q r : 0 < n -> 0 <= r < n -> a = q * n + r -> a / n = q /\ a mod n = r.
Proof.
  intros Hn Hr E. split; [symmetry; apply (Z.div_unique _ _ _ r); [left; exact Hr|lia]|].
  symmetry. apply (Z.mod_unique _ _ q); [left; exact Hr|lia].
Qed.
Lemma pk_holds f n A : 0 < sf_cw f -> 0 < sf_cd f -> 0 < sf_cells f -> sf_order f <> CDiagonal ->
  (forall w d, operand_value (sf_signed f) (A w d mod 256) = A w d) ->
  holds_run f (pk_block f (n * sf_cd f) A) 100 (n * sf_cd f) A.
Proof.
  intros Hw0 Hd0 Hc0 Ho HA w d Hw Hd. exists (A w d mod 256). split; [|split; [apply Z.mod_pos_bound; lia|apply HA]].
  unfold sf_width in *. set (W := sf_cw f) in *. set (D := sf_cd f) in *. set (C := sf_cells f) in *.
  pose proof (Z.mod_pos_bound w W Hw0) as Bw. pose proof (Z.mod_pos_bound d D Hd0) as Bd.
  pose proof (Z.div_mod w W ltac:(lia)) as Ew. pose proof (Z.div_mod d D ltac:(lia)) as Ed.
  assert (Wq : 0 <= w / W < C) by (split; [apply Z.div_pos; lia|apply Z.div_lt_upper_bound; lia]).
  assert (Dq : 0 <= d / D < n) by (split; [apply Z.div_pos; lia|apply Z.div_lt_upper_bound; lia]).
  assert (Hoff : 0 <= cell_off f (w mod W) (d mod D) < W * D).
  { unfold cell_off. fold W D. destruct (sf_order f); [nia|nia|congruence]. }
  unfold pk_block, run_index, sf_width. fold W D C. set (o := cell_off f (w mod W) (d mod D)) in *.
  replace (100 + ((d / D * C + w / W) * (W * D) + o) - 100) with ((d / D * C + w / W) * (W * D) + o) by lia.
  destruct (split_div ((d / D * C + w / W) * (W * D) + o) (W * D) (d / D * C + w / W) o ltac:(nia) Hoff eq_refl) as [-> ->].
  destruct (split_div (d / D * C + w / W) C (d / D) (w / W) Hc0 Wq eq_refl) as [-> ->].
  assert (R : match sf_order f with CDepthMajor => (o mod W, o / W) | _ => (o / D, o mod D) end = (w mod W, d mod D)).
  { unfold o, cell_off. fold W D. destruct (sf_order f) eqn:Eo; [| |congruence].
    - destruct (split_div (w mod W + d mod D * W) W (d mod D) (w mod W) Hw0 Bw ltac:(ring)) as [-> ->]. reflexivity.
    - destruct (split_div (d mod D + w mod W * D) D (w mod W) (d mod D) Hd0 Bd ltac:(ring)) as [-> ->]. reflexivity. }
  rewrite R.
  assert (G : 0 <= (d / D * C + w / W) * (W * D) + o < C * W * (n * D)).
  { assert (0 <= d / D * C + w / W <= n * C - 1) by nia. assert (0 < W * D) by nia. nia. }
  rewrite (proj2 (Z.leb_le _ _) (proj1 G)), (proj2 (Z.ltb_lt _ _) (proj2 G)). cbn [andb]. f_equal. f_equal. f_equal; lia.
Qed.
Lemma byte_ok x : 0 <= x < 256 -> operand_value false (x mod 256) = x.
Proof. intros H. apply Z.mod_small. exact H. Qed.
Lemma int8_ok x : -128 <= x <= 127 -> operand_value true (x mod 256) = x.
Proof. intros H. unfold operand_value. change (x mod 256) with (wrapU 8 x). rewrite wrapS_wrapU by lia. apply wrapS_small; [lia|unfold int_min, int_max; cbn; lia]. Qed.

(* operands *)
Definition naA (w d : Z) : Z := (w * 37 + d * 101 + 255) mod 256.
Definition naB (c d : Z) : Z := (c * 91 + d * 59 + 200) mod 256.
Lemma naA_byte w d : operand_value false (naA w d mod 256) = naA w d.
Proof. apply byte_ok, Z.mod_pos_bound. lia. Qed.
Lemma naB_byte w d : operand_value false (naB w d mod 256) = naB w d.
Proof. apply byte_ok, Z.mod_pos_bound. lia. Qed.
(* signed operands, including the pair (-128)*127 but never (-128)*(-128) *)
Definition siA (w d : Z) : Z := (w * 37 + d * 101 + 255) mod 255 - 127.
Definition siB (c d : Z) : Z := if c =? 0 then -128 else (c * 91 + d * 59 + 200) mod 256 - 128.
Lemma siA_byte w d : operand_value true (siA w d mod 256) = siA w d.
Proof. apply int8_ok. unfold siA. pose proof (Z.mod_pos_bound (w * 37 + d * 101 + 255) 255 ltac:(lia)). lia. Qed.
Lemma siB_byte w d : operand_value true (siB w d mod 256) = siB w d.
Proof. apply int8_ok. unfold siB. destruct (w =? 0); [lia|]. pose proof (Z.mod_pos_bound (w * 91 + d * 59 + 200) 256 ltac:(lia)). lia. Qed.
Lemma si_ok r c d : not_both_min (siA r d) (siB c d).
Proof. left. unfold siA. pose proof (Z.mod_pos_bound (r * 37 + d * 101 + 255) 255 ltac:(lia)). lia. Qed.
Definition afl0 : aflags := mk_af true false.
Definition loc0 : mem := fun a => if (0 <=? a) && (a <? 48) then Some (a * a) else None.
(* all operands minimal *)
Definition minus (_ _ : Z) : Z := -128.

Lemma N4x4_any_pair_refuted : exists junk t0 t1 fl loc, length junk = 32%nat /\
  ~ kernel_correct Wrap (N4x4_kernel junk t0 t1 fl loc).
Proof.
  exists (zregs 32), 1, 2, afl0, loc0. split; [reflexivity|]. intros H.
  destruct (H kx_dst 20 13 (pk_block (kf_lhs N4x4_fmt) 16 minus) 100 (pk_block (kf_rhs N4x4_fmt) 16 minus) 100 0 16 minus minus (kx_old 13))
    as (res & E & HV & _).
  - lia.
  - lia.
  - exists 1. reflexivity.
  - apply (kx_inj 4 13). lia.
  - apply (pk_holds (kf_lhs N4x4_fmt) 1 minus); try (cbn; lia); [discriminate|reflexivity].
  - apply (pk_holds (kf_rhs N4x4_fmt) 1 minus); try (cbn; lia); [discriminate|reflexivity].
  - intros r c Hr Hc. apply (kx_dst_ok 4 13); [lia|lia|exact Hr|exact Hc].
  - left. reflexivity.
  - destruct (HV 0 0) as (v & Ev & _ & Hv); [split; reflexivity || discriminate|split; reflexivity || discriminate|].
    specialize (Hv (fun _ _ => I)). assert (E2 : forall d, 16 <= d < RoundUp 16 16 -> minus 0 d = 0 /\ minus 0 d = 0).
    { change (RoundUp 16 16) with 16. intros d Hd. lia. }
    specialize (Hv E2).
    assert (X : option_map (fun m => m 20) (k_run (N4x4_kernel (zregs 32) 1 2 afl0 loc0) kx_dst 20 1 13
      (pk_block (kf_lhs N4x4_fmt) 16 minus) 100 (pk_block (kf_rhs N4x4_fmt) 16 minus) 100 0 16) = Some (Some (-262144))) by (vm_compute; reflexivity).
    rewrite E in X. cbn [option_map] in X. injection X as X. change (20 + (0 * 1 + 0 * 13)) with 20 in Ev.
    rewrite X in Ev. injection Ev as <-. vm_compute in Hv. discriminate.
Qed.
Lemma N4x2_any_pair_refuted : exists junk t0 t1 fl loc, length junk = 16%nat /\
  ~ kernel_correct Wrap (N4x2_kernel junk t0 t1 fl loc).
Proof.
  exists (zregs 16), 1, 2, afl0, loc0. split; [reflexivity|]. intros H.
  destruct (H kx_dst 20 13 (pk_block (kf_lhs N4x2_fmt) 16 minus) 100 (pk_block (kf_rhs N4x2_fmt) 16 minus) 100 0 16 minus minus (kx_old 13))
    as (res & E & HV & _).
  - lia.
  - lia.
  - exists 1. reflexivity.
  - intros r c r' c' Hr Hc Hr' Hc'. change (kCols (k_fmt (N4x2_kernel (zregs 16) 1 2 afl0 loc0))) with 2 in *. apply (kx_inj 4 13); try assumption; lia.
  - apply (pk_holds (kf_lhs N4x2_fmt) 1 minus); try (cbn; lia); [discriminate|reflexivity].
  - apply (pk_holds (kf_rhs N4x2_fmt) 1 minus); try (cbn; lia); [discriminate|reflexivity].
  - intros r c Hr Hc. change (kCols (k_fmt (N4x2_kernel (zregs 16) 1 2 afl0 loc0))) with 2 in *.
    apply (kx_dst_ok 4 13); [lia|lia|exact Hr|lia].
  - left. reflexivity.
  - destruct (HV 0 0) as (v & Ev & _ & Hv); [split; reflexivity || discriminate|split; reflexivity || discriminate|].
    specialize (Hv (fun _ _ => I)). assert (E2 : forall d, 16 <= d < RoundUp 16 16 -> minus 0 d = 0 /\ minus 0 d = 0).
    { change (RoundUp 16 16) with 16. intros d Hd. lia. }
    specialize (Hv E2).
    assert (X : option_map (fun m => m 20) (k_run (N4x2_kernel (zregs 16) 1 2 afl0 loc0) kx_dst 20 1 13
      (pk_block (kf_lhs N4x2_fmt) 16 minus) 100 (pk_block (kf_rhs N4x2_fmt) 16 minus) 100 0 16) = Some (Some (-262144))) by (vm_compute; reflexivity).
    rewrite E in X. cbn [option_map] in X. injection X as X. change (20 + (0 * 1 + 0 * 13)) with 20 in Ev.
    rewrite X in Ev. injection Ev as <-. vm_compute in Hv. discriminate.
Qed.
Lemma ex_threads_neon : threads_ok N12x8_fmt 4 3 4.
Proof. unfold threads_ok. cbv zeta. change (kRows N12x8_fmt) with 12. vm_compute; intuition discriminate. Qed.
Lemma ex_threads_neon8 : threads_ok N4x2_fmt 4 3 4.
Proof. unfold threads_ok. cbv zeta. change (kRows N4x2_fmt) with 4. vm_compute; intuition discriminate. Qed.
