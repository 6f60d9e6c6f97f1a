(* SelectProofs.v: the choice of the kernel *)
From Verif Require Import Base BaseLemmas CommonModel PackModel PackProofs4 GemmSpec ComputeModel KernelSpec KernelProofs OutputModel OutputSpec OutputSimdSpec UnpackModel
  GemmModel GemmContract GemmProofs GemmProofs3 GemmProofs4 GemmExample SimdModel X86Model X86Contract X86Example ArmModel ArmInt8 ArmContract ArmInt8Inputs ArmExample Bits12Contract MsaContract
  SelectModel SelectContract.

Lemma serves_any m K l r : kernel_fmt_ok (k_fmt K) -> kernel_usable m K -> packs_correct m K -> serves m K l r.
Proof.
  intros Hk HK HKp t hw mnt sc scs lhs rhs result lo ro p L R LO RO out before Ht Hth HP _ _ Hv.
  apply (gemm_correct m K) with (L := L) (R := R) (LO := LO) (RO := RO); try assumption.
  split; [exact Hk|]. split; [exact HK|]. split; [exact HKp|]. split; assumption.
Qed.
Lemma serves_on ok m K l r : kernel_fmt_ok (k_fmt K) -> kernel_usable_on ok m K -> packs_correct m K -> ok 0 0 ->
  (forall x y, or_min l <= x <= or_max l -> or_min r <= y <= or_max r ->
     in_min (kf_lhs (k_fmt K)) <= x <= in_min (kf_lhs (k_fmt K)) + 255 -> in_min (kf_lhs (k_fmt K)) <= y <= in_min (kf_lhs (k_fmt K)) + 255 ->
     ok (x - sf_zp (kf_lhs (k_fmt K))) (y - sf_zp (kf_rhs (k_fmt K))) /\
     ok (y - sf_zp (kf_lhs (k_fmt K))) (x - sf_zp (kf_rhs (k_fmt K)))) -> serves m K l r.
Proof.
  intros Hk HK HKp H0 Hok t hw mnt sc scs lhs rhs result lo ro p L R LO RO out before Ht Hth HP HL HR Hv.
  apply (gemm_on ok m K) with (L := L) (R := R) (LO := LO) (RO := RO); try assumption.
  intros a c d Ha Hc Hd. destruct HP as [E1 E2 E3 _ H1 H2 _ _ _ _ _ E12].
  apply Hok; [apply HL; assumption|apply HR; assumption|apply (proj1 H1); lia|rewrite <- E12; apply (proj1 H2); lia].
Qed.
Lemma ref_fmt_ok : kernel_fmt_ok (mk_kernel_fmt (mk_side_fmt 4 16 CWidthMajor 1 FUint8) (mk_side_fmt 4 16 CWidthMajor 1 FUint8) 16).
Proof. repeat split; cbn; try lia; try discriminate. exists 1. reflexivity. Qed.
Lemma int8_serves m K l r : neon_int8 K -> 0 < or_min l \/ 0 < or_min r -> serves m K l r.
Proof.
  intros HK Hl. apply (serves_on not_both_min).
  - destruct HK; [exact N4x2_fmt_ok|exact N4x4_fmt_ok].
  - apply correct_usable_on. now apply neon_int8_correct.
  - now apply neon_int8_packs.
  - left. discriminate.
  - intros x y Hx Hy Bx By. replace (sf_zp (kf_lhs (k_fmt K))) with 128 by (destruct HK; reflexivity).
    replace (sf_zp (kf_rhs (k_fmt K))) with 128 by (destruct HK; reflexivity). unfold not_both_min. lia.
Qed.
Lemma msa_int8_serves m asm junk t0 t1 l r : length junk = 32%nat -> 0 < or_min l \/ 0 < or_min r -> serves m (M4x4_kernel asm junk t0 t1) l r.
Proof.
  intros Hj Hl. apply (serves_on not_both_min).
  - exact M4x4_fmt_ok.
  - apply correct_usable_on. now apply M4x4_correct.
  - apply msa_packs; [exact M4x4_fmt_ok|reflexivity|reflexivity].
  - left. discriminate.
  - intros x y Hx Hy Bx By. change (sf_zp (kf_lhs (k_fmt (M4x4_kernel asm junk t0 t1)))) with 128.
    change (sf_zp (kf_rhs (k_fmt (M4x4_kernel asm junk t0 t1)))) with 128. unfold not_both_min. lia.
Qed.
Lemma signed_serves m K l r : neon_int8_inputs K -> -128 < or_min l -> serves m K l r.
Proof.
  intros HK Hl. destruct (int8_inputs_fmt K HK) as (F1 & Z1 & Z2 & I1 & I2). apply (serves_on not_both_min).
  - exact F1.
  - apply correct_usable_on. now apply int8_inputs_correct.
  - now apply int8_inputs_packs.
  - left. discriminate.
  - intros x y Hx Hy Bx By. rewrite Z1, Z2. unfold not_both_min. lia.
Qed.
(* the choice for signed lhs ranges *)
Lemma signed_choice p l r : or_min l < 0 ->
  DefaultKernel p l r =
    if (4096 <=? or_max l * or_max r) && (or_max l <=? 127) && (-128 <? or_min l) then
      match p with
      | Neon32 => Some K_NEON_32bit_Int8_Int8Inputs
      | Neon64 _ => Some K_NEON_64bit_Int8_Int8Inputs
      | _ => None
      end
    else None.
Proof.
  intros Hl. unfold DefaultKernel, kernel_args. replace (0 <=? or_min l) with false by lia. replace (0 <? or_min l) with false by lia. cbn [orb].
  destruct (Z.ltb_spec (or_max l * or_max r) 4096); destruct (Z.leb_spec 4096 (or_max l * or_max r)); try lia; cbn [andb];
    destruct ((or_max l <=? 127) && (-128 <? or_min l)); destruct p as [|[]| | | | |]; reflexivity.
Qed.
Lemma signed_selected p l r : or_min l < 0 ->
  (DefaultKernel p l r <> None <-> (p = Neon32 \/ exists dot, p = Neon64 dot) /\ 4096 <= or_max l * or_max r /\ or_max l <= 127 /\ -128 < or_min l).
Proof.
  intros Hl. rewrite signed_choice by exact Hl.
  destruct (Z.leb_spec 4096 (or_max l * or_max r)); destruct (Z.leb_spec (or_max l) 127); destruct (Z.ltb_spec (-128) (or_min l)); cbn [andb];
    (split; [intros G; try congruence|intros (G1 & G2 & G3 & G4); try lia]).
  - split; [|auto]. destruct p; try congruence; eauto.
  - destruct G1 as [->|[d ->]]; discriminate.
Qed.
Lemma signed_served m p l r name : or_min l < 0 -> DefaultKernel p l r = Some name ->
  (exists K, is_kernel m name K) /\ forall K, is_kernel m name K -> sf_kind (kf_lhs (k_fmt K)) = FInt8Inputs /\ serves m K l r.
Proof.
  intros Hl HS. rewrite signed_choice in HS by exact Hl.
  destruct ((4096 <=? or_max l * or_max r) && (or_max l <=? 127) && (-128 <? or_min l)) eqn:E; [|discriminate].
  assert (Hm : -128 < or_min l) by lia.
  destruct p as [|d| | | | |]; try discriminate; injection HS as <-.
  - split; [exists (N4x2i_kernel (zregs 16) 1 2 afl0 loc0); now constructor|].
    intros K HK. inversion HK; subst. split; [reflexivity|]. apply signed_serves; [now constructor|exact Hm].
  - split; [exists (N4x4i_kernel (zregs 32) 1 2 afl0 loc0); now constructor|].
    intros K HK. inversion HK; subst. split; [reflexivity|]. apply signed_serves; [now constructor|exact Hm].
Qed.
(* products that always fit 12 bits *)
Lemma small_signed_refuted : exists l r, range_ok l /\ range_ok r /\ -128 < or_min l /\ or_max l <= 127 /\ -128 <= or_min r /\ or_max r <= 127 /\
  DefaultKernel Neon32 Int8RangeExcludingLow Int8Range <> None /\
  or_min Int8RangeExcludingLow <= or_min l /\ or_max l <= or_max Int8RangeExcludingLow /\
  forall p, DefaultKernel p l r = None.
Proof.
  exists (mk_range (-63) 63), (mk_range (-63) 63). unfold range_ok. cbn. repeat split; try lia; try discriminate. intros [|[]| | | | |]; reflexivity.
Qed.
Definition int8_choice (p : platform) : Prop := p = Neon32 \/ p = Neon64 false \/ p = Msa.
(* what the choice of the int8 kernels needs *)
Definition safe_choice (p : platform) (l r : operand_range) : Prop :=
  int8_choice p -> or_max l * or_max r < 4096 \/ 0 < or_min l \/ 127 < or_max l \/ 0 < or_min r.
Lemma int8_chosen p l r name : 0 <= or_min l -> safe_choice p l r -> DefaultKernel p l r = Some name ->
  name = K_NEON_32bit_Int8 \/ name = K_NEON_64bit_Int8 \/ name = K_MSA_Int8 -> 0 < or_min l \/ 0 < or_min r.
Proof.
  intros Hl Hx HS Hn. unfold DefaultKernel, kernel_args in HS.
  replace (0 <=? or_min l) with true in HS by lia. replace (-128 <? or_min l) with true in HS by lia. rewrite andb_true_r in HS.
  destruct (Z.ltb_spec (or_max l * or_max r) 4096); destruct (Z.ltb_spec 0 (or_min l)); [now left| |now left|];
    destruct (Z.leb_spec (or_max l) 127); destruct p as [|[]| | | | |];
    try discriminate HS; try (destruct Hn as [->|[->| ->]]; discriminate HS); unfold safe_choice, int8_choice in Hx;
    destruct Hx as [?|[?|[?|?]]]; auto; lia.
Qed.
Lemma selected_serves m p l r name K : range_ok l -> range_ok r -> 0 <= or_min l -> 0 <= or_min r ->
  safe_choice p l r ->
  DefaultKernel p l r = Some name -> is_kernel m name K -> serves m K l r.
Proof.
  intros Hl Hr Hl0 Hr0 Hx HS HK. pose proof HS as HS0. unfold DefaultKernel, kernel_args in HS.
  replace (0 <=? or_min l) with true in HS by lia. replace (-128 <? or_min l) with true in HS by lia. rewrite andb_true_r in HS.
  destruct HK as [junk t0 t1 fl loc Hj|junk t0 t1 fl loc Hj Hloc|junk t0 t1 fl loc Hj|junk t0 t1 fl loc Hj|junk t0 t1 fl loc Hj
    |junk t0 t1 fl loc Hj|junk t0 t1 t2 fl Hj|junk t0 t1 t2 fl Hj|junk t0 t1 t2 fl Hj| |junk t0 t1 fl loc Hj|junk t0 t1 fl loc Hj|asm junk t0 t1 Hj|asm junk t0 t1 Hj].
  - apply serves_any; [exact N12x4_fmt_ok|apply correct_usable; now apply N12x4_correct|apply neon_uint8_packs; now constructor].
  - apply (serves_on bits12); [exact N12b_fmt_ok|apply correct_usable_on; now apply N12b_correct|apply N12b_packs|unfold bits12; lia|].
    assert (Hp : or_max l * or_max r < 4096).
    { destruct (Z.ltb_spec (or_max l * or_max r) 4096) as [C|C]; [exact C|].
      exfalso. destruct ((0 <? or_min l) || (or_max l <=? 127)); destruct p as [|[]| | | | |]; discriminate HS. }
    intros x y Hx' Hy' Bx By. change (sf_zp (kf_lhs (k_fmt (N12b_kernel junk t0 t1 fl loc)))) with 0.
    change (sf_zp (kf_rhs (k_fmt (N12b_kernel junk t0 t1 fl loc)))) with 0. unfold bits12. rewrite !Z.sub_0_r. unfold range_ok in *. nia.
  - apply int8_serves; [now constructor|]. apply (int8_chosen p l r _ Hl0 Hx HS0). auto.
  - apply serves_any; [exact N12x8_fmt_ok|apply correct_usable; now apply N12x8_correct|apply neon_uint8_packs; now constructor].
  - apply serves_any; [exact Ndot_fmt_ok|apply correct_usable; now apply Ndot_correct|apply neon_uint8_packs; now constructor].
  - apply int8_serves; [now constructor|]. apply (int8_chosen p l r _ Hl0 Hx HS0). auto.
  - apply serves_any; [exact SSE32_fmt_ok|apply correct_usable; now apply SSE32_correct|apply SSE32_packs].
  - apply serves_any; [exact SSE64_fmt_ok|apply correct_usable; now apply SSE64_correct|apply SSE64_packs].
  - apply serves_any; [exact AVX2_fmt_ok|now apply AVX2_usable|apply AVX2_packs].
  - apply serves_any; [exact ref_fmt_ok|apply correct_usable, reference_kernel_correct; [exact ref_fmt_ok|reflexivity|reflexivity]|].
    apply generic_packs; [exact ref_fmt_ok|reflexivity].
  - apply signed_serves; [now constructor|]. lia.
  - apply signed_serves; [now constructor|]. lia.
  - apply serves_any; [exact M12x8_fmt_ok|apply correct_usable; now apply M12x8_correct|apply msa_packs; [exact M12x8_fmt_ok|reflexivity|reflexivity]].
  - apply msa_int8_serves; [exact Hj|]. apply (int8_chosen p l r _ Hl0 Hx HS0). auto.
Qed.
Lemma selected_iff p l r : 0 <= or_min l ->
  (DefaultKernel p l r <> None <-> ~ (or_max l * or_max r < 4096 /\ (0 < or_min l \/ or_max l <= 127))).
Proof.
  intros Hl. unfold DefaultKernel, kernel_args.
  replace (0 <=? or_min l) with true by lia. replace (-128 <? or_min l) with true by lia. rewrite andb_true_r.
  destruct (Z.ltb_spec (or_max l * or_max r) 4096); destruct (Z.ltb_spec 0 (or_min l)); destruct (Z.leb_spec (or_max l) 127); cbn [orb];
    destruct p as [|[]| | | | |]; cbn; split; intro G; try discriminate; try lia; try (exfalso; apply G; first [reflexivity|lia]).
Qed.

(* the finding: uint8 lhs values up to 127 count as "never zero" *)
Definition zmat (_ _ : Z) : Z := 0.
Definition z_lhs : operand := mk_operand (gap_mem 0 4 16 16 zmat) (mk_map 0 4 16 16 RowMajor).
Definition z_rhs : operand := mk_operand (gap_mem 0 16 4 4 zmat) (mk_map 0 16 4 4 RowMajor).
Definition z_result : matrix_map := mk_map 0 4 4 4 ColMajor.
Definition z_before : mem := fun a => if (0 <=? a) && (a <? 16) then Some 7 else None.
Lemma z_problem m K : kf_reg (k_fmt K) = 16 -> takes_uint8 (k_fmt K) -> gemm_problem m K (op_mem z_lhs) (op_map z_lhs) (op_mem z_rhs) (op_map z_rhs) z_result (VDup VCol 0 4) (VDup VRow 0 4) []
  zmat zmat (fun _ => 0) (fun _ => 0) zmat.
Proof.
  intros Hk [U1 U2]. constructor; try reflexivity.
  - cbn. lia.
  - apply holds_uint8_lhs; [exact U1|]. apply gap_holds; [lia|]. intros. unfold zmat. lia.
  - apply holds_uint8_rhs; [exact U2|]. apply gap_holds; [lia|]. intros. unfold zmat. lia.
  - split; [exact I|]. split; [cbn; lia|]. intros i Hi. reflexivity.
  - split; [exact I|]. split; [cbn; lia|]. intros i Hi. reflexivity.
  - right. rewrite (in_min_uint8 _ U1). exists 255, 255. split; [lia|]. split; [lia|]. cbn [z_result z_lhs op_map mm_rows mm_cols]. split; [lia|]. split; intros; lia.
  - destruct (k_out K) as [T|]; [|exact I]. split; [discriminate|]. unfold i32. split; [lia|]. split; [lia|]. intros; exact I.
  - rewrite !in_min_uint8 by assumption. reflexivity.
Qed.
Lemma z_valid : valid_view z_before z_result.
Proof.
  split; [|cbn; lia]. intros r c Hr Hc. cbn in Hr, Hc. unfold z_before, entry_addr. cbn.
  replace ((0 <=? r + c * 4) && (r + c * 4 <? 16)) with true by lia. eauto.
Qed.
(* the stored value of entry (0,0) when every operand entry is 0 *)
Definition z_result_00 (m : ovf) (K : kernel) : option Z :=
  let* phases := DispatchGemmShape m K (ex_tune 64 64) 1 1 (ex_scratch 1) (fun c n => ex_scratch (c + n))
    z_lhs z_rhs z_result (VDup VCol 0 4) (VDup VRow 0 4) [] in
  let* after := perform (flat phases) z_before in after 0.
Lemma z_32 m : z_result_00 m (N4x2_kernel (zregs 16) 1 2 afl0 loc0) = Some (-524288).
Proof. destruct m; vm_compute; reflexivity. Qed.
Lemma z_64 m : z_result_00 m (N4x4_kernel (zregs 32) 1 2 afl0 loc0) = Some (-524288).
Proof. destruct m; vm_compute; reflexivity. Qed.
Lemma z_msa m : z_result_00 m (M4x4_kernel Rev6 (zregs 32) 1 2) = Some (-524288).
Proof. destruct m; vm_compute; reflexivity. Qed.
Lemma z_not_served m K l r : kf_reg (k_fmt K) = 16 -> takes_uint8 (k_fmt K) -> or_min l <= 0 <= or_max l -> or_min r <= 0 <= or_max r ->
  z_result_00 m K = Some (-524288) -> ~ serves m K l r.
Proof.
  intros Hk Hu Hl Hr Hz Hs.
  destruct (Hs (ex_tune 64 64) 1 1 (ex_scratch 1) (fun c n => ex_scratch (c + n)) z_lhs z_rhs z_result (VDup VCol 0 4) (VDup VRow 0 4) []
    zmat zmat (fun _ => 0) (fun _ => 0) zmat z_before) as (phases & E & _ & H).
  - apply ex_tune_ok. lia.
  - left. reflexivity.
  - apply z_problem; assumption.
  - intros i j _ _. exact Hl.
  - intros i j _ _. exact Hr.
  - exact z_valid.
  - destruct (H _ (execution_seq phases)) as (after & Ep & G & _). specialize (G 0 0 ltac:(cbn; lia) ltac:(cbn; lia)).
    unfold z_result_00 in Hz. rewrite E in Hz. cbn [bind] in Hz. rewrite Ep in Hz. cbn [bind] in Hz.
    change (entry_addr z_result 0 0) with 0 in G. rewrite G in Hz. discriminate Hz.
Qed.
(* the kernels chosen for a target are all modelled *)
Lemma selected_modelled m p l r name : 0 <= or_min l -> DefaultKernel p l r = Some name -> exists K, is_kernel m name K.
Proof.
  intros Hl HS. unfold DefaultKernel, kernel_args in HS. replace (0 <=? or_min l) with true in HS by lia.
  destruct (or_max l * or_max r <? 4096); destruct ((0 <? or_min l) || ((or_max l <=? 127) && (-128 <? or_min l)));
    destruct p as [|[]| | | | |]; try congruence; cbn in HS; try discriminate HS; injection HS as <-.
  all: try (eexists; constructor; fail).
  all: try (exists (N12x4_kernel (zregs 16) 1 2 afl0 loc0); constructor; reflexivity).
  all: try (exists (N12b_kernel (zregs 16) 1 2 afl0 loc0); constructor; [reflexivity|exact loc0_ok]).
  all: try (exists (N4x2_kernel (zregs 16) 1 2 afl0 loc0); constructor; reflexivity).
  all: try (exists (N4x4_kernel (zregs 32) 1 2 afl0 loc0); constructor; reflexivity).
  all: try (exists (N12x8_kernel (zregs 32) 1 2 afl0 loc0); constructor; reflexivity).
  all: try (exists (Ndot_kernel (zregs 32) 1 2 afl0 loc0); constructor; reflexivity).
  all: try (exists (SSE32_kernel (zregs 8) 1 2 3 fl0); constructor; reflexivity).
  all: try (exists (SSE64_kernel (zregs 16) 1 2 3 fl0); constructor; reflexivity).
  all: try (exists (M12x8_kernel Rev6 (zregs 32) 1 2); constructor; reflexivity).
  all: try (exists (M4x4_kernel Rev6 (zregs 32) 1 2); constructor; reflexivity).
  all: try (exists (AVX2_kernel (zregs 16) 1 2 3 fl0); constructor; reflexivity).
Qed.
Lemma served_iff m p l r name : range_ok l -> range_ok r -> 0 <= or_min l -> 0 <= or_min r ->
  DefaultKernel p l r = Some name ->
  ((forall K, is_kernel m name K -> serves m K l r) <-> safe_choice p l r).
Proof.
  intros Hl Hr Hl0 Hr0 HS. split.
  - intros H Hi. unfold range_ok in *.
    destruct (Z.ltb_spec (or_max l * or_max r) 4096) as [C1|C1]; [now left|]. right.
    destruct (Z.ltb_spec 0 (or_min l)) as [C2|C2]; [now left|]. right.
    destruct (Z.ltb_spec 127 (or_max l)) as [C3|C3]; [now left|]. right.
    destruct (Z.ltb_spec 0 (or_min r)) as [C4|C4]; [assumption|exfalso].
    unfold DefaultKernel, kernel_args in HS. replace (or_max l * or_max r <? 4096) with false in HS by lia.
    replace (0 <=? or_min l) with true in HS by lia.
    replace ((0 <? or_min l) || ((or_max l <=? 127) && (-128 <? or_min l))) with true in HS by lia.
    destruct Hi as [->|[->| ->]]; cbn in HS; injection HS as <-.
    + refine (z_not_served m (N4x2_kernel (zregs 16) 1 2 afl0 loc0) l r eq_refl (conj _ _) _ _ (z_32 m) (H _ _)); [discriminate|discriminate|lia|lia|now constructor].
    + refine (z_not_served m (N4x4_kernel (zregs 32) 1 2 afl0 loc0) l r eq_refl (conj _ _) _ _ (z_64 m) (H _ _)); [discriminate|discriminate|lia|lia|now constructor].
    + refine (z_not_served m (M4x4_kernel Rev6 (zregs 32) 1 2) l r eq_refl (conj _ _) _ _ (z_msa m) (H _ _)); [discriminate|discriminate|lia|lia|now constructor].
  - intros Hx K HK. now apply (selected_serves m p l r name K).
Qed.

(* a GEMM call with 6-bit operands for the examples *)
Definition sxL (r d : Z) : Z := exL r d mod 64.
Definition sxR (d c : Z) : Z := exR d c mod 64.
Definition sx_lhs : operand := mk_operand (gap_mem 3 2 3 5 sxL) (mk_map 3 2 3 5 RowMajor).
Definition sx_rhs : operand := mk_operand (gap_mem 7 3 4 6 sxR) (mk_map 7 3 4 6 RowMajor).
Definition sx_pipe : list stage := [SBias (VMap VRow (ex_vec [1000; -2000; 3000; 77])); SQuantizeDown 9000 13 10; SSatU8].
Definition sx_out (r c : Z) : Z :=
  match pipe_at Trap sx_pipe r c (offset_product sxL sxR exLO exRO 3 r c) with Some v => v | None => 0 end.
Lemma sx_problem m K : 1 <= kf_reg (k_fmt K) <= 16 -> takes_uint8 (k_fmt K) ->
  gemm_problem m K (op_mem sx_lhs) (op_map sx_lhs) (op_mem sx_rhs) (op_map sx_rhs) ex_result ex_lo ex_ro sx_pipe
    sxL sxR exLO exRO sx_out.
Proof.
  intros Hk [U1 U2]. constructor; try reflexivity.
  - cbn. lia.
  - apply holds_uint8_lhs; [exact U1|]. apply gap_holds; [lia|]. intros r c. unfold sxL. pose proof (Z.mod_pos_bound (exL r c) 64 ltac:(lia)). lia.
  - apply holds_uint8_rhs; [exact U2|]. apply gap_holds; [lia|]. intros r c. unfold sxR. pose proof (Z.mod_pos_bound (exR r c) 64 ltac:(lia)). lia.
  - split; [reflexivity|]. split; [cbn; lia|]. intros i Hi. cbn in Hi.
    assert (i = 0 \/ i = 1) as [->| ->] by lia; reflexivity.
  - split; [exact I|]. split; [cbn; lia|]. intros i Hi. reflexivity.
  - right. rewrite (in_min_uint8 _ U1). exists 255, 255. split; [lia|]. split; [lia|]. cbn [ex_result sx_lhs op_map mm_rows mm_cols]. split; [lia|]. unfold exLO, exRO.
    split; [|lia]. intros r Hr. destruct (r =? 0); lia.
  - intros r c Hr Hc. cbn in Hr, Hc.
    assert (r = 0 \/ r = 1) as [->| ->] by lia; assert (c = 0 \/ c = 1 \/ c = 2 \/ c = 3) as [->|[->|[->| ->]]] by lia;
      destruct m; vm_compute; reflexivity.
  - destruct (k_out K) as [T|]; [|exact I]. split; [discriminate|]. split; [intros r _; unfold i32, exLO; destruct (r =? 0); lia|].
    split; [unfold i32, exRO; lia|]. intros r c Hr Hc. cbn in Hr, Hc.
    split; [|intros y _; split; [unfold stage_safe, i32; lia|intros z _; split; [exact I|intros; exact I]]].
    intros x E. assert (c = 0 \/ c = 1 \/ c = 2 \/ c = 3) as [->|[->|[->| ->]]] by lia; vm_compute in E; injection E as <-; unfold i32; lia.
  - rewrite !in_min_uint8 by assumption. reflexivity.
Qed.
Lemma sx_product r c d : sxL r d * sxR d c < 4096.
Proof.
  unfold sxL, sxR. pose proof (Z.mod_pos_bound (exL r d) 64 ltac:(lia)). pose proof (Z.mod_pos_bound (exR d c) 64 ltac:(lia)). nia.
Qed.
Lemma ex_threads_bits12 : threads_ok N12b_fmt 4 3 4.
Proof. unfold threads_ok. cbv zeta. change (kRows N12b_fmt) with 12. vm_compute; intuition discriminate. Qed.
Lemma small_ranges_refuted : exists l r, range_ok l /\ range_ok r /\ 0 <= or_min l /\ 0 <= or_min r /\
  or_max l <= 255 /\ or_max r <= 255 /\ forall p, DefaultKernel p l r = None.
Proof.
  exists (mk_range 0 127), (mk_range 0 31). unfold range_ok. cbn [or_min or_max]. do 6 (split; [lia|]).
  intros [|[]| | | | |]; reflexivity.
Qed.
Lemma low_range_refuted : exists p l r name K, range_ok l /\ range_ok r /\ 0 <= or_min l /\ 0 <= or_min r /\
  or_max l <= 255 /\ or_max r <= 255 /\
  DefaultKernel p l r = Some name /\ is_kernel Trap name K /\ ~ serves Trap K l r.
Proof.
  exists (Neon64 false), (mk_range 0 127), (mk_range 0 255), K_NEON_64bit_Int8, (N4x4_kernel (zregs 32) 1 2 afl0 loc0).
  unfold range_ok. cbn [or_min or_max]. do 6 (split; [lia|]). split; [reflexivity|]. split; [now constructor|].
  apply z_not_served; [reflexivity|split; discriminate|cbn; lia|cbn; lia|apply z_64].
Qed.
