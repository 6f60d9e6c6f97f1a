(* X86Blocks.v: the blocks of the three x86 kernels, executed symbolically *)
From Verif Require Import Base BaseLemmas SimdModel X86Model X86Kernels X86Proofs X86Loop.

#[local] Opaque t_zx t_load t_store v_pmovzxbw v_load v_store v_pmaddwd v_paddd v_pshufd v_permq v_xor.
Ltac obl := match goal with H : ?P |- ?Q => constr_eq P Q; exact H end.
Ltac symex := lazy [xrun xstepT nth_error app fst snd vget vset xs_v xs_g xs_f xs_dst nth set_nth gget gset gsetf
  g_lhs g_rhs g_dst g_cells g_start g_stride g_t0 g_t1 g_t2 xaddr_of holds_cond f_c f_z f_s
  SSE4_64_Kernel12x4Depth2_asm SSE4_32_Kernel4x4Depth2_asm AVX2_64_Kernel24x8Depth2_asm].


(* ------------------------------------------------------------------ *)
(* SSE4_64_Kernel12x4Depth2_asm *)
Definition SSE64_qs : list (Z * Z) := [(0, 0); (0, 1); (0, 2); (1, 0); (1, 1); (1, 2); (2, 0); (2, 1); (2, 2); (3, 0); (3, 1); (3, 2)].
Lemma SSE64_qs_ok : NoDup SSE64_qs /\ forall c rc, In (c, rc) SSE64_qs <-> 0 <= c < 4 /\ 0 <= rc < 3.
Proof.
  unfold SSE64_qs. split.
  - repeat constructor; cbn [In]; intuition discriminate.
  - intros c rc. cbn [In]. split; [intuition (match goal with H : (_, _) = _ |- _ => injection H as <- <- end; lia)|].
    intros [Hc Hr]. assert (c = 0 \/ c = 1 \/ c = 2 \/ c = 3) as C4 by lia. assert (rc = 0 \/ rc = 1 \/ rc = 2) as C3 by lia.
    destruct C4 as [-> | [-> | [-> | ->]]]; destruct C3 as [-> | [-> | ->]]; tauto.
Qed.
Section SSE64.
Variables (lhs rhs : mem) (lp0 rp0 D dst start cs : Z) (res : mem) (A B : Z -> Z -> Z).
Hypothesis HL : forall w d, 0 <= w < 3 * Z.of_nat 4 -> 0 <= d < D ->
  lhs (lp0 + ((d / 2 * 3 + w / Z.of_nat 4) * (Z.of_nat 4 * 2) + (d mod 2 + w mod Z.of_nat 4 * 2))) = Some (A w d) /\ 0 <= A w d < 256.
Hypothesis HR : forall c d, 0 <= c < 4 -> 0 <= d < D ->
  rhs (rp0 + (d / 2 * 8 + (d mod 2 + c * 2))) = Some (B c d) /\ 0 <= B c d < 256.
Definition SSE64_regs (x0 x1 x2 x3 : reg) (a : Z -> Z -> reg) : list reg :=
  [x0; x1; x2; x3; a 0 0; a 0 1; a 0 2; a 0 3; a 1 0; a 1 1; a 1 2; a 1 3; a 2 0; a 2 1; a 2 2; a 2 3].
Definition SSE64_rel (acc : Z -> Z -> reg) (dc m : Z) (s : xstate) : Prop :=
  exists x0 x1 x2 x3 t2 fl, s = mk_xs (SSE64_regs x0 x1 x2 x3 acc)
    (mk_gprs (lp0 + dc * 24) (rp0 + dc * 8) (4 * dst) m start cs (cs * 2 ^ 2) (cs * 2 ^ 2 + cs * 2 ^ 2 * 2) t2) fl res.
Lemma SSE64_loop2 acc dc m s : SSE64_rel acc dc m s -> 0 <= dc -> 2 * dc + 4 <= D ->
  exists s' R0 R1, rhs_words 4 R0 (cellR B dc) /\ rhs_words 4 R1 (cellR B (dc + 1)) /\
    xsteps 86 4 lhs rhs SSE4_64_Kernel12x4Depth2_asm 18 s = Some (if negb ((0 <=? m) && (m <? 2)) && negb (m - 2 =? 0) then 18%nat else 104%nat, s') /\
    SSE64_rel (acc_next 4 A (dc + 1) R1 (acc_next 4 A dc R0 acc)) (dc + 2) (m - 2) s'.
Proof.
  intros (x0 & x1 & x2 & x3 & t2 & fl & ->) Hd HD.
  destruct (t_zx_ok 4 rhs (0 + (rp0 + dc * 8)) (cellR B (dc + 0))) as [OR0 ER0].
  { intros j Hj. rewrite <- (proj1 (cellR_ok 4 3 lhs rhs lp0 rp0 D A B ltac:(lia) ltac:(lia) HL HR (dc + 0) j ltac:(lia) ltac:(lia) ltac:(lia))). f_equal. lia. }
  destruct (t_zx_ok 4 lhs (0 + (lp0 + dc * 24)) (cellL 4 A (dc + 0) 0)) as [OL00 EL00].
  { intros j Hj. rewrite <- (proj1 (cellL_ok 4 3 lhs rhs lp0 rp0 D A B ltac:(lia) ltac:(lia) HL HR (dc + 0) 0 j ltac:(lia) ltac:(lia) ltac:(lia) ltac:(lia))). f_equal. lia. }
  destruct (t_zx_ok 4 lhs (8 + (lp0 + dc * 24)) (cellL 4 A (dc + 0) 1)) as [OL01 EL01].
  { intros j Hj. rewrite <- (proj1 (cellL_ok 4 3 lhs rhs lp0 rp0 D A B ltac:(lia) ltac:(lia) HL HR (dc + 0) 1 j ltac:(lia) ltac:(lia) ltac:(lia) ltac:(lia))). f_equal. lia. }
  destruct (t_zx_ok 4 lhs (16 + (lp0 + dc * 24)) (cellL 4 A (dc + 0) 2)) as [OL02 EL02].
  { intros j Hj. rewrite <- (proj1 (cellL_ok 4 3 lhs rhs lp0 rp0 D A B ltac:(lia) ltac:(lia) HL HR (dc + 0) 2 j ltac:(lia) ltac:(lia) ltac:(lia) ltac:(lia))). f_equal. lia. }
  destruct (t_zx_ok 4 rhs (8 + (rp0 + dc * 8)) (cellR B (dc + 1))) as [OR1 ER1].
  { intros j Hj. rewrite <- (proj1 (cellR_ok 4 3 lhs rhs lp0 rp0 D A B ltac:(lia) ltac:(lia) HL HR (dc + 1) j ltac:(lia) ltac:(lia) ltac:(lia))). f_equal. lia. }
  destruct (t_zx_ok 4 lhs (24 + (lp0 + dc * 24)) (cellL 4 A (dc + 1) 0)) as [OL10 EL10].
  { intros j Hj. rewrite <- (proj1 (cellL_ok 4 3 lhs rhs lp0 rp0 D A B ltac:(lia) ltac:(lia) HL HR (dc + 1) 0 j ltac:(lia) ltac:(lia) ltac:(lia) ltac:(lia))). f_equal. lia. }
  destruct (t_zx_ok 4 lhs (32 + (lp0 + dc * 24)) (cellL 4 A (dc + 1) 1)) as [OL11 EL11].
  { intros j Hj. rewrite <- (proj1 (cellL_ok 4 3 lhs rhs lp0 rp0 D A B ltac:(lia) ltac:(lia) HL HR (dc + 1) 1 j ltac:(lia) ltac:(lia) ltac:(lia) ltac:(lia))). f_equal. lia. }
  destruct (t_zx_ok 4 lhs (40 + (lp0 + dc * 24)) (cellL 4 A (dc + 1) 2)) as [OL12 EL12].
  { intros j Hj. rewrite <- (proj1 (cellL_ok 4 3 lhs rhs lp0 rp0 D A B ltac:(lia) ltac:(lia) HL HR (dc + 1) 2 j ltac:(lia) ltac:(lia) ltac:(lia) ltac:(lia))). f_equal. lia. }
  eexists. exists (wide 4 (cellR B (dc + 0))). exists (wide 4 (cellR B (dc + 1))).
  split; [rewrite <- (Z.add_0_r dc) at 2; exact (rhs_words_4 (cellR B (dc + 0)) (fun j Hj => proj2 (cellR_ok 4 3 lhs rhs lp0 rp0 D A B ltac:(lia) ltac:(lia) HL HR (dc + 0) j ltac:(lia) ltac:(lia) Hj)))|].
  split; [exact (rhs_words_4 (cellR B (dc + 1)) (fun j Hj => proj2 (cellR_ok 4 3 lhs rhs lp0 rp0 D A B ltac:(lia) ltac:(lia) HL HR (dc + 1) j ltac:(lia) ltac:(lia) Hj)))|].
  split.
  - eapply xrun_sound; [unfold SSE64_regs; symex; reflexivity|].
    cbn [all_of]. repeat (apply conj; [obl|]). exact I.
  - rewrite EL00, EL01, EL02, EL10, EL11, EL12, ER0, ER1. unfold SSE64_rel. do 6 eexists.
    unfold SSE64_regs, acc_next, mac. rewrite ?Z.add_0_r.
    change (85 * 0) with 0. change (85 * 1) with 85. change (85 * 2) with 170. change (85 * 3) with 255.
    replace (lp0 + dc * 24 + 48) with (lp0 + (dc + 2) * 24) by lia.
    replace (rp0 + dc * 8 + 16) with (rp0 + (dc + 2) * 8) by lia. reflexivity.
Qed.
Lemma SSE64_loop1 acc dc m s : SSE64_rel acc dc m s -> 0 <= dc -> 2 * dc + 2 <= D ->
  exists s' R0, rhs_words 4 R0 (cellR B dc) /\
    xsteps 44 4 lhs rhs SSE4_64_Kernel12x4Depth2_asm 107 s = Some (if negb (m - 1 =? 0) then 107%nat else 151%nat, s') /\
    SSE64_rel (acc_next 4 A dc R0 acc) (dc + 1) (m - 1) s'.
Proof.
  intros (x0 & x1 & x2 & x3 & t2 & fl & ->) Hd HD.
  destruct (t_zx_ok 4 rhs (0 + (rp0 + dc * 8)) (cellR B (dc + 0))) as [OR0 ER0].
  { intros j Hj. rewrite <- (proj1 (cellR_ok 4 3 lhs rhs lp0 rp0 D A B ltac:(lia) ltac:(lia) HL HR (dc + 0) j ltac:(lia) ltac:(lia) ltac:(lia))). f_equal. lia. }
  destruct (t_zx_ok 4 lhs (0 + (lp0 + dc * 24)) (cellL 4 A (dc + 0) 0)) as [OL00 EL00].
  { intros j Hj. rewrite <- (proj1 (cellL_ok 4 3 lhs rhs lp0 rp0 D A B ltac:(lia) ltac:(lia) HL HR (dc + 0) 0 j ltac:(lia) ltac:(lia) ltac:(lia) ltac:(lia))). f_equal. lia. }
  destruct (t_zx_ok 4 lhs (8 + (lp0 + dc * 24)) (cellL 4 A (dc + 0) 1)) as [OL01 EL01].
  { intros j Hj. rewrite <- (proj1 (cellL_ok 4 3 lhs rhs lp0 rp0 D A B ltac:(lia) ltac:(lia) HL HR (dc + 0) 1 j ltac:(lia) ltac:(lia) ltac:(lia) ltac:(lia))). f_equal. lia. }
  destruct (t_zx_ok 4 lhs (16 + (lp0 + dc * 24)) (cellL 4 A (dc + 0) 2)) as [OL02 EL02].
  { intros j Hj. rewrite <- (proj1 (cellL_ok 4 3 lhs rhs lp0 rp0 D A B ltac:(lia) ltac:(lia) HL HR (dc + 0) 2 j ltac:(lia) ltac:(lia) ltac:(lia) ltac:(lia))). f_equal. lia. }
  eexists. exists (wide 4 (cellR B (dc + 0))).
  split; [rewrite <- (Z.add_0_r dc) at 2; exact (rhs_words_4 (cellR B (dc + 0)) (fun j Hj => proj2 (cellR_ok 4 3 lhs rhs lp0 rp0 D A B ltac:(lia) ltac:(lia) HL HR (dc + 0) j ltac:(lia) ltac:(lia) Hj)))|].
  split.
  - eapply xrun_sound; [unfold SSE64_regs; symex; reflexivity|].
    cbn [all_of]. repeat (apply conj; [obl|]). exact I.
  - rewrite EL00, EL01, EL02, ER0. unfold SSE64_rel. do 6 eexists.
    unfold SSE64_regs, acc_next, mac. rewrite ?Z.add_0_r.
    change (85 * 0) with 0. change (85 * 1) with 85. change (85 * 2) with 170. change (85 * 3) with 255.
    replace (lp0 + dc * 24 + 24) with (lp0 + (dc + 1) * 24) by lia.
    replace (rp0 + dc * 8 + 8) with (rp0 + (dc + 1) * 8) by lia. reflexivity.
Qed.
Lemma SSE64_after acc dc m s : SSE64_rel acc dc m s -> m <= 0 ->
  exists s', xsteps 3 4 lhs rhs SSE4_64_Kernel12x4Depth2_asm 104 s = Some (151%nat, s') /\ SSE64_rel acc dc m s'.
Proof.
  intros (x0 & x1 & x2 & x3 & t2 & fl & ->) Hm. eexists. split.
  - eapply xrun_sound; [unfold SSE64_regs; symex; replace (m - 1 <? 0) with true by lia; reflexivity|exact I].
  - unfold SSE64_rel. do 6 eexists. reflexivity.
Qed.
Lemma SSE64_start junk t0 t1 t2 fl m : length junk = 16%nat ->
  exists s acc, xsteps 18 4 lhs rhs SSE4_64_Kernel12x4Depth2_asm 0 (mk_xs junk (mk_gprs lp0 rp0 (4 * dst) m start cs t0 t1 t2) fl res) =
    Some (if m - 2 <? 0 then 107%nat else 18%nat, s) /\ SSE64_rel acc 0 m s /\ (forall rc c, exists x, acc rc c = v_xor x x).
Proof.
  intros Hj. do 16 (destruct junk as [|? junk]; [discriminate|]). destruct junk; [|discriminate].
  eexists. exists (fun rc c => let x := nth (Z.to_nat (4 + 4 * rc + c)) [r; r0; r1; r2; r3; r4; r5; r6; r7; r8; r9; r10; r11; r12; r13; r14] 0 in v_xor x x).
  split; [eapply xrun_sound; [symex; reflexivity|exact I]|]. split.
  - unfold SSE64_rel. do 6 eexists. unfold SSE64_regs. cbv beta zeta.
    change (Z.to_nat (4 + 4 * 0 + 0)) with 4%nat. change (Z.to_nat (4 + 4 * 0 + 1)) with 5%nat. change (Z.to_nat (4 + 4 * 0 + 2)) with 6%nat. change (Z.to_nat (4 + 4 * 0 + 3)) with 7%nat. change (Z.to_nat (4 + 4 * 1 + 0)) with 8%nat. change (Z.to_nat (4 + 4 * 1 + 1)) with 9%nat. change (Z.to_nat (4 + 4 * 1 + 2)) with 10%nat. change (Z.to_nat (4 + 4 * 1 + 3)) with 11%nat. change (Z.to_nat (4 + 4 * 2 + 0)) with 12%nat. change (Z.to_nat (4 + 4 * 2 + 1)) with 13%nat. change (Z.to_nat (4 + 4 * 2 + 2)) with 14%nat. change (Z.to_nat (4 + 4 * 2 + 3)) with 15%nat.
    cbv beta iota zeta delta [nth].
    replace (lp0 + 0 * 24) with lp0 by lia. replace (rp0 + 0 * 8) with rp0 by lia. reflexivity.
  - intros rc c. eexists. reflexivity.
Qed.
Variable old : Z -> Z -> Z.
Hypothesis Hinj : forall r c r' c', 0 <= r < 3 * Z.of_nat 4 -> 0 <= c < 4 -> 0 <= r' < 3 * Z.of_nat 4 -> 0 <= c' < 4 ->
  r * 1 + c * cs = r' * 1 + c' * cs -> r = r' /\ c = c'.
Hypothesis Hold : forall r c, 0 <= r < 3 * Z.of_nat 4 -> 0 <= c < 4 -> res (dst + (r * 1 + c * cs)) = Some (old r c).
Lemma SSE64_finish0 acc dc m s : SSE64_rel acc dc m s -> start = 0 ->
  exists s', xsteps 14 4 lhs rhs SSE4_64_Kernel12x4Depth2_asm 151 s = Some (177%nat, s') /\
    xs_dst s' = storesT 4 res (map (fun p => (4 * fst p, snd p)) (store_list 4 dst cs SSE64_qs (acc))).
Proof.
  intros (x0 & x1 & x2 & x3 & t2 & fl & ->) Hst.
  destruct (stores_finish 4 3 dst cs res old ltac:(lia) ltac:(lia) Hinj Hold SSE64_qs SSE64_qs_ok (acc)) as (S1 & _ & _).
  eexists. split.
  - etransitivity; [apply (xsteps_app 2 12); eapply xrun_sound; [unfold SSE64_regs; symex; reflexivity|exact I]|].
    rewrite Z.land_diag. replace (start =? 0) with true by lia. cbv iota.
    eapply xrun_sound; [symex; reflexivity|].
    cbn [all_of].
     replace (0 + 4 * dst + 0) with (4 * (dst + (Z.of_nat 4 * 0 + 0 * cs))) by lia.
     replace (16 + 4 * dst + 0) with (4 * (dst + (Z.of_nat 4 * 1 + 0 * cs))) by lia.
     replace (32 + 4 * dst + 0) with (4 * (dst + (Z.of_nat 4 * 2 + 0 * cs))) by lia.
     replace (0 + 4 * dst + (cs * 2 ^ 2) * 1) with (4 * (dst + (Z.of_nat 4 * 0 + 1 * cs))) by lia.
     replace (16 + 4 * dst + (cs * 2 ^ 2) * 1) with (4 * (dst + (Z.of_nat 4 * 1 + 1 * cs))) by lia.
     replace (32 + 4 * dst + (cs * 2 ^ 2) * 1) with (4 * (dst + (Z.of_nat 4 * 2 + 1 * cs))) by lia.
     replace (0 + 4 * dst + (cs * 2 ^ 2) * 2) with (4 * (dst + (Z.of_nat 4 * 0 + 2 * cs))) by lia.
     replace (16 + 4 * dst + (cs * 2 ^ 2) * 2) with (4 * (dst + (Z.of_nat 4 * 1 + 2 * cs))) by lia.
     replace (32 + 4 * dst + (cs * 2 ^ 2) * 2) with (4 * (dst + (Z.of_nat 4 * 2 + 2 * cs))) by lia.
     replace (0 + 4 * dst + (cs * 2 ^ 2 + cs * 2 ^ 2 * 2) * 1) with (4 * (dst + (Z.of_nat 4 * 0 + 3 * cs))) by lia.
     replace (16 + 4 * dst + (cs * 2 ^ 2 + cs * 2 ^ 2 * 2) * 1) with (4 * (dst + (Z.of_nat 4 * 1 + 3 * cs))) by lia.
     replace (32 + 4 * dst + (cs * 2 ^ 2 + cs * 2 ^ 2 * 2) * 1) with (4 * (dst + (Z.of_nat 4 * 2 + 3 * cs))) by lia.
     
    unfold store_list, SSE64_qs in S1. cbn [map fst snd store_obls all_of] in S1. exact S1.
  - cbn [xs_dst].
     replace (0 + 4 * dst + 0) with (4 * (dst + (Z.of_nat 4 * 0 + 0 * cs))) by lia.
     replace (16 + 4 * dst + 0) with (4 * (dst + (Z.of_nat 4 * 1 + 0 * cs))) by lia.
     replace (32 + 4 * dst + 0) with (4 * (dst + (Z.of_nat 4 * 2 + 0 * cs))) by lia.
     replace (0 + 4 * dst + (cs * 2 ^ 2) * 1) with (4 * (dst + (Z.of_nat 4 * 0 + 1 * cs))) by lia.
     replace (16 + 4 * dst + (cs * 2 ^ 2) * 1) with (4 * (dst + (Z.of_nat 4 * 1 + 1 * cs))) by lia.
     replace (32 + 4 * dst + (cs * 2 ^ 2) * 1) with (4 * (dst + (Z.of_nat 4 * 2 + 1 * cs))) by lia.
     replace (0 + 4 * dst + (cs * 2 ^ 2) * 2) with (4 * (dst + (Z.of_nat 4 * 0 + 2 * cs))) by lia.
     replace (16 + 4 * dst + (cs * 2 ^ 2) * 2) with (4 * (dst + (Z.of_nat 4 * 1 + 2 * cs))) by lia.
     replace (32 + 4 * dst + (cs * 2 ^ 2) * 2) with (4 * (dst + (Z.of_nat 4 * 2 + 2 * cs))) by lia.
     replace (0 + 4 * dst + (cs * 2 ^ 2 + cs * 2 ^ 2 * 2) * 1) with (4 * (dst + (Z.of_nat 4 * 0 + 3 * cs))) by lia.
     replace (16 + 4 * dst + (cs * 2 ^ 2 + cs * 2 ^ 2 * 2) * 1) with (4 * (dst + (Z.of_nat 4 * 1 + 3 * cs))) by lia.
     replace (32 + 4 * dst + (cs * 2 ^ 2 + cs * 2 ^ 2 * 2) * 1) with (4 * (dst + (Z.of_nat 4 * 2 + 3 * cs))) by lia.
    unfold store_list, SSE64_qs. cbn [map fst snd storesT]. reflexivity.
Qed.
Lemma SSE64_finish1 acc dc m s : SSE64_rel acc dc m s -> start <> 0 ->
  exists s', xsteps 26 4 lhs rhs SSE4_64_Kernel12x4Depth2_asm 151 s = Some (177%nat, s') /\
    xs_dst s' = storesT 4 res (map (fun p => (4 * fst p, snd p)) (store_list 4 dst cs SSE64_qs (fun rc c => v_paddd 4 (t_load 4 res (4 * (dst + (Z.of_nat 4 * rc + c * cs)))) (acc rc c)))).
Proof.
  intros (x0 & x1 & x2 & x3 & t2 & fl & ->) Hst.
  destruct (stores_finish 4 3 dst cs res old ltac:(lia) ltac:(lia) Hinj Hold SSE64_qs SSE64_qs_ok (fun rc c => v_paddd 4 (t_load 4 res (4 * (dst + (Z.of_nat 4 * rc + c * cs)))) (acc rc c))) as (S1 & _ & _).
  eexists. split.
  - etransitivity; [apply (xsteps_app 2 24); eapply xrun_sound; [unfold SSE64_regs; symex; reflexivity|exact I]|].
    rewrite Z.land_diag. replace (start =? 0) with false by lia. cbv iota.
    eapply xrun_sound; [symex; reflexivity|].
    cbn [all_of].
     replace (0 + 4 * dst + 0) with (4 * (dst + (Z.of_nat 4 * 0 + 0 * cs))) by lia.
     replace (16 + 4 * dst + 0) with (4 * (dst + (Z.of_nat 4 * 1 + 0 * cs))) by lia.
     replace (32 + 4 * dst + 0) with (4 * (dst + (Z.of_nat 4 * 2 + 0 * cs))) by lia.
     replace (0 + 4 * dst + (cs * 2 ^ 2) * 1) with (4 * (dst + (Z.of_nat 4 * 0 + 1 * cs))) by lia.
     replace (16 + 4 * dst + (cs * 2 ^ 2) * 1) with (4 * (dst + (Z.of_nat 4 * 1 + 1 * cs))) by lia.
     replace (32 + 4 * dst + (cs * 2 ^ 2) * 1) with (4 * (dst + (Z.of_nat 4 * 2 + 1 * cs))) by lia.
     replace (0 + 4 * dst + (cs * 2 ^ 2) * 2) with (4 * (dst + (Z.of_nat 4 * 0 + 2 * cs))) by lia.
     replace (16 + 4 * dst + (cs * 2 ^ 2) * 2) with (4 * (dst + (Z.of_nat 4 * 1 + 2 * cs))) by lia.
     replace (32 + 4 * dst + (cs * 2 ^ 2) * 2) with (4 * (dst + (Z.of_nat 4 * 2 + 2 * cs))) by lia.
     replace (0 + 4 * dst + (cs * 2 ^ 2 + cs * 2 ^ 2 * 2) * 1) with (4 * (dst + (Z.of_nat 4 * 0 + 3 * cs))) by lia.
     replace (16 + 4 * dst + (cs * 2 ^ 2 + cs * 2 ^ 2 * 2) * 1) with (4 * (dst + (Z.of_nat 4 * 1 + 3 * cs))) by lia.
     replace (32 + 4 * dst + (cs * 2 ^ 2 + cs * 2 ^ 2 * 2) * 1) with (4 * (dst + (Z.of_nat 4 * 2 + 3 * cs))) by lia.
     split; [exact (proj1 (load_finish 4 3 dst cs res old ltac:(lia) ltac:(lia) Hinj Hold 0 0 ltac:(lia) ltac:(lia)))|]. split; [exact (proj1 (load_finish 4 3 dst cs res old ltac:(lia) ltac:(lia) Hinj Hold 1 0 ltac:(lia) ltac:(lia)))|]. split; [exact (proj1 (load_finish 4 3 dst cs res old ltac:(lia) ltac:(lia) Hinj Hold 2 0 ltac:(lia) ltac:(lia)))|]. split; [exact (proj1 (load_finish 4 3 dst cs res old ltac:(lia) ltac:(lia) Hinj Hold 0 1 ltac:(lia) ltac:(lia)))|]. split; [exact (proj1 (load_finish 4 3 dst cs res old ltac:(lia) ltac:(lia) Hinj Hold 1 1 ltac:(lia) ltac:(lia)))|]. split; [exact (proj1 (load_finish 4 3 dst cs res old ltac:(lia) ltac:(lia) Hinj Hold 2 1 ltac:(lia) ltac:(lia)))|]. split; [exact (proj1 (load_finish 4 3 dst cs res old ltac:(lia) ltac:(lia) Hinj Hold 0 2 ltac:(lia) ltac:(lia)))|]. split; [exact (proj1 (load_finish 4 3 dst cs res old ltac:(lia) ltac:(lia) Hinj Hold 1 2 ltac:(lia) ltac:(lia)))|]. split; [exact (proj1 (load_finish 4 3 dst cs res old ltac:(lia) ltac:(lia) Hinj Hold 2 2 ltac:(lia) ltac:(lia)))|]. split; [exact (proj1 (load_finish 4 3 dst cs res old ltac:(lia) ltac:(lia) Hinj Hold 0 3 ltac:(lia) ltac:(lia)))|]. split; [exact (proj1 (load_finish 4 3 dst cs res old ltac:(lia) ltac:(lia) Hinj Hold 1 3 ltac:(lia) ltac:(lia)))|]. split; [exact (proj1 (load_finish 4 3 dst cs res old ltac:(lia) ltac:(lia) Hinj Hold 2 3 ltac:(lia) ltac:(lia)))|].
    unfold store_list, SSE64_qs in S1. cbn [map fst snd store_obls all_of] in S1. exact S1.
  - cbn [xs_dst].
     replace (0 + 4 * dst + 0) with (4 * (dst + (Z.of_nat 4 * 0 + 0 * cs))) by lia.
     replace (16 + 4 * dst + 0) with (4 * (dst + (Z.of_nat 4 * 1 + 0 * cs))) by lia.
     replace (32 + 4 * dst + 0) with (4 * (dst + (Z.of_nat 4 * 2 + 0 * cs))) by lia.
     replace (0 + 4 * dst + (cs * 2 ^ 2) * 1) with (4 * (dst + (Z.of_nat 4 * 0 + 1 * cs))) by lia.
     replace (16 + 4 * dst + (cs * 2 ^ 2) * 1) with (4 * (dst + (Z.of_nat 4 * 1 + 1 * cs))) by lia.
     replace (32 + 4 * dst + (cs * 2 ^ 2) * 1) with (4 * (dst + (Z.of_nat 4 * 2 + 1 * cs))) by lia.
     replace (0 + 4 * dst + (cs * 2 ^ 2) * 2) with (4 * (dst + (Z.of_nat 4 * 0 + 2 * cs))) by lia.
     replace (16 + 4 * dst + (cs * 2 ^ 2) * 2) with (4 * (dst + (Z.of_nat 4 * 1 + 2 * cs))) by lia.
     replace (32 + 4 * dst + (cs * 2 ^ 2) * 2) with (4 * (dst + (Z.of_nat 4 * 2 + 2 * cs))) by lia.
     replace (0 + 4 * dst + (cs * 2 ^ 2 + cs * 2 ^ 2 * 2) * 1) with (4 * (dst + (Z.of_nat 4 * 0 + 3 * cs))) by lia.
     replace (16 + 4 * dst + (cs * 2 ^ 2 + cs * 2 ^ 2 * 2) * 1) with (4 * (dst + (Z.of_nat 4 * 1 + 3 * cs))) by lia.
     replace (32 + 4 * dst + (cs * 2 ^ 2 + cs * 2 ^ 2 * 2) * 1) with (4 * (dst + (Z.of_nat 4 * 2 + 3 * cs))) by lia.
    unfold store_list, SSE64_qs. cbn [map fst snd storesT]. reflexivity.
Qed.
End SSE64.

(* ------------------------------------------------------------------ *)
(* AVX2_64_Kernel24x8Depth2_asm *)
Definition AVX_qs : list (Z * Z) := [(0, 0); (0, 1); (0, 2); (1, 0); (1, 1); (1, 2); (2, 0); (2, 1); (2, 2); (3, 0); (3, 1); (3, 2)].
Lemma AVX_qs_ok : NoDup AVX_qs /\ forall c rc, In (c, rc) AVX_qs <-> 0 <= c < 4 /\ 0 <= rc < 3.
Proof.
  unfold AVX_qs. split.
  - repeat constructor; cbn [In]; intuition discriminate.
  - intros c rc. cbn [In]. split; [intuition (match goal with H : (_, _) = _ |- _ => injection H as <- <- end; lia)|].
    intros [Hc Hr]. assert (c = 0 \/ c = 1 \/ c = 2 \/ c = 3) as C4 by lia. assert (rc = 0 \/ rc = 1 \/ rc = 2) as C3 by lia.
    destruct C4 as [-> | [-> | [-> | ->]]]; destruct C3 as [-> | [-> | ->]]; tauto.
Qed.
Section AVX.
Variables (lhs rhs : mem) (lp0 rp0 D dst start cs : Z) (res : mem) (A B : Z -> Z -> Z).
Hypothesis HL : forall w d, 0 <= w < 3 * Z.of_nat 8 -> 0 <= d < D ->
  lhs (lp0 + ((d / 2 * 3 + w / Z.of_nat 8) * (Z.of_nat 8 * 2) + (d mod 2 + w mod Z.of_nat 8 * 2))) = Some (A w d) /\ 0 <= A w d < 256.
Hypothesis HR : forall c d, 0 <= c < 4 -> 0 <= d < D ->
  rhs (rp0 + (d / 2 * 8 + (d mod 2 + c * 2))) = Some (B c d) /\ 0 <= B c d < 256.
(* the kernel loads 16 bytes where a rhs cell has 8: 8 more must be readable *)
Hypothesis HX : forall j, 0 <= j < 4 * D + 8 -> rhs (rp0 + j) <> None.
Definition AVX_regs (x0 x1 x2 x3 : reg) (a : Z -> Z -> reg) : list reg :=
  [x0; x1; x2; x3; a 0 0; a 0 1; a 0 2; a 0 3; a 1 0; a 1 1; a 1 2; a 1 3; a 2 0; a 2 1; a 2 2; a 2 3].
Definition AVX_rel (acc : Z -> Z -> reg) (dc m : Z) (s : xstate) : Prop :=
  exists x0 x1 x2 x3 t2 fl, s = mk_xs (AVX_regs x0 x1 x2 x3 acc)
    (mk_gprs (lp0 + dc * 48) (rp0 + dc * 8) (4 * dst) m start cs (cs * 2 ^ 2) (cs * 2 ^ 2 + cs * 2 ^ 2 * 2) t2) fl res.
Lemma AVX_loop2 acc dc m s : AVX_rel acc dc m s -> 0 <= dc -> 2 * dc + 4 <= D ->
  exists s' R0 R1, rhs_words 8 R0 (cellR B dc) /\ rhs_words 8 R1 (cellR B (dc + 1)) /\
    xsteps 94 8 lhs rhs AVX2_64_Kernel24x8Depth2_asm 18 s = Some (if negb ((0 <=? m) && (m <? 2)) && negb (m - 2 =? 0) then 18%nat else 112%nat, s') /\
    AVX_rel (acc_next 8 A (dc + 1) R1 (acc_next 8 A dc R0 acc)) (dc + 2) (m - 2) s'.
Proof.
  intros (x0 & x1 & x2 & x3 & t2 & fl & ->) Hd HD.
  destruct (t_zx_ok 8 rhs (0 + (rp0 + dc * 8)) (fun j => if j <? 8 then cellR B (dc + 0) j else match rhs (0 + (rp0 + dc * 8) + j) with Some x => x | None => 0 end)) as [OR0 ER0].
  { intros j Hj. destruct (j <? 8) eqn:E8.
    - rewrite <- (proj1 (cellR_ok 8 3 lhs rhs lp0 rp0 D A B ltac:(lia) ltac:(lia) HL HR (dc + 0) j ltac:(lia) ltac:(lia) ltac:(lia))). f_equal. lia.
    - pose proof (HX (0 + dc * 8 + j) ltac:(lia)) as Hx. replace (rp0 + (0 + dc * 8 + j)) with (0 + (rp0 + dc * 8) + j) in Hx by lia.
      destruct (rhs (0 + (rp0 + dc * 8) + j)); [reflexivity|congruence]. }
  destruct (t_zx_ok 8 lhs (0 + (lp0 + dc * 48)) (cellL 8 A (dc + 0) 0)) as [OL00 EL00].
  { intros j Hj. rewrite <- (proj1 (cellL_ok 8 3 lhs rhs lp0 rp0 D A B ltac:(lia) ltac:(lia) HL HR (dc + 0) 0 j ltac:(lia) ltac:(lia) ltac:(lia) ltac:(lia))). f_equal. lia. }
  destruct (t_zx_ok 8 lhs (16 + (lp0 + dc * 48)) (cellL 8 A (dc + 0) 1)) as [OL01 EL01].
  { intros j Hj. rewrite <- (proj1 (cellL_ok 8 3 lhs rhs lp0 rp0 D A B ltac:(lia) ltac:(lia) HL HR (dc + 0) 1 j ltac:(lia) ltac:(lia) ltac:(lia) ltac:(lia))). f_equal. lia. }
  destruct (t_zx_ok 8 lhs (32 + (lp0 + dc * 48)) (cellL 8 A (dc + 0) 2)) as [OL02 EL02].
  { intros j Hj. rewrite <- (proj1 (cellL_ok 8 3 lhs rhs lp0 rp0 D A B ltac:(lia) ltac:(lia) HL HR (dc + 0) 2 j ltac:(lia) ltac:(lia) ltac:(lia) ltac:(lia))). f_equal. lia. }
  destruct (t_zx_ok 8 rhs (8 + (rp0 + dc * 8)) (fun j => if j <? 8 then cellR B (dc + 1) j else match rhs (8 + (rp0 + dc * 8) + j) with Some x => x | None => 0 end)) as [OR1 ER1].
  { intros j Hj. destruct (j <? 8) eqn:E8.
    - rewrite <- (proj1 (cellR_ok 8 3 lhs rhs lp0 rp0 D A B ltac:(lia) ltac:(lia) HL HR (dc + 1) j ltac:(lia) ltac:(lia) ltac:(lia))). f_equal. lia.
    - pose proof (HX (8 + dc * 8 + j) ltac:(lia)) as Hx. replace (rp0 + (8 + dc * 8 + j)) with (8 + (rp0 + dc * 8) + j) in Hx by lia.
      destruct (rhs (8 + (rp0 + dc * 8) + j)); [reflexivity|congruence]. }
  destruct (t_zx_ok 8 lhs (48 + (lp0 + dc * 48)) (cellL 8 A (dc + 1) 0)) as [OL10 EL10].
  { intros j Hj. rewrite <- (proj1 (cellL_ok 8 3 lhs rhs lp0 rp0 D A B ltac:(lia) ltac:(lia) HL HR (dc + 1) 0 j ltac:(lia) ltac:(lia) ltac:(lia) ltac:(lia))). f_equal. lia. }
  destruct (t_zx_ok 8 lhs (64 + (lp0 + dc * 48)) (cellL 8 A (dc + 1) 1)) as [OL11 EL11].
  { intros j Hj. rewrite <- (proj1 (cellL_ok 8 3 lhs rhs lp0 rp0 D A B ltac:(lia) ltac:(lia) HL HR (dc + 1) 1 j ltac:(lia) ltac:(lia) ltac:(lia) ltac:(lia))). f_equal. lia. }
  destruct (t_zx_ok 8 lhs (80 + (lp0 + dc * 48)) (cellL 8 A (dc + 1) 2)) as [OL12 EL12].
  { intros j Hj. rewrite <- (proj1 (cellL_ok 8 3 lhs rhs lp0 rp0 D A B ltac:(lia) ltac:(lia) HL HR (dc + 1) 2 j ltac:(lia) ltac:(lia) ltac:(lia) ltac:(lia))). f_equal. lia. }
  eexists. exists (v_permq 68 (t_zx 8 rhs (0 + (rp0 + dc * 8)))). exists (v_permq 68 (t_zx 8 rhs (8 + (rp0 + dc * 8)))).
  split.
  { rewrite ER0. intros i j Hi Hj. rewrite g_permq by lia. replace ((8 * (i / 4) + j) mod 8) with j by lia.
    rewrite g_wide; [replace (j <? 8) with true by lia; now rewrite Z.add_0_r|lia|replace (j <? 8) with true by lia].
    exact (proj2 (cellR_ok 8 3 lhs rhs lp0 rp0 D A B ltac:(lia) ltac:(lia) HL HR (dc + 0) j ltac:(lia) ltac:(lia) Hj)). }
  split.
  { rewrite ER1. intros i j Hi Hj. rewrite g_permq by lia. replace ((8 * (i / 4) + j) mod 8) with j by lia.
    rewrite g_wide; [replace (j <? 8) with true by lia; reflexivity|lia|replace (j <? 8) with true by lia].
    exact (proj2 (cellR_ok 8 3 lhs rhs lp0 rp0 D A B ltac:(lia) ltac:(lia) HL HR (dc + 1) j ltac:(lia) ltac:(lia) Hj)). }
  split.
  - eapply xrun_sound; [unfold AVX_regs; symex; reflexivity|].
    cbn [all_of]. repeat (apply conj; [obl|]). exact I.
  - rewrite EL00, EL01, EL02, EL10, EL11, EL12. unfold AVX_rel. do 6 eexists.
    unfold AVX_regs, acc_next, mac. rewrite ?Z.add_0_r.
    change (85 * 0) with 0. change (85 * 1) with 85. change (85 * 2) with 170. change (85 * 3) with 255.
    replace (lp0 + dc * 48 + 96) with (lp0 + (dc + 2) * 48) by lia.
    replace (rp0 + dc * 8 + 16) with (rp0 + (dc + 2) * 8) by lia. reflexivity.
Qed.
Lemma AVX_loop1 acc dc m s : AVX_rel acc dc m s -> 0 <= dc -> 2 * dc + 2 <= D ->
  exists s' R0, rhs_words 8 R0 (cellR B dc) /\
    xsteps 45 8 lhs rhs AVX2_64_Kernel24x8Depth2_asm 115 s = Some (if negb (m - 1 =? 0) then 115%nat else 160%nat, s') /\
    AVX_rel (acc_next 8 A dc R0 acc) (dc + 1) (m - 1) s'.
Proof.
  intros (x0 & x1 & x2 & x3 & t2 & fl & ->) Hd HD.
  destruct (t_zx_ok 8 rhs (0 + (rp0 + dc * 8)) (fun j => if j <? 8 then cellR B (dc + 0) j else match rhs (0 + (rp0 + dc * 8) + j) with Some x => x | None => 0 end)) as [OR0 ER0].
  { intros j Hj. destruct (j <? 8) eqn:E8.
    - rewrite <- (proj1 (cellR_ok 8 3 lhs rhs lp0 rp0 D A B ltac:(lia) ltac:(lia) HL HR (dc + 0) j ltac:(lia) ltac:(lia) ltac:(lia))). f_equal. lia.
    - pose proof (HX (0 + dc * 8 + j) ltac:(lia)) as Hx. replace (rp0 + (0 + dc * 8 + j)) with (0 + (rp0 + dc * 8) + j) in Hx by lia.
      destruct (rhs (0 + (rp0 + dc * 8) + j)); [reflexivity|congruence]. }
  destruct (t_zx_ok 8 lhs (0 + (lp0 + dc * 48)) (cellL 8 A (dc + 0) 0)) as [OL00 EL00].
  { intros j Hj. rewrite <- (proj1 (cellL_ok 8 3 lhs rhs lp0 rp0 D A B ltac:(lia) ltac:(lia) HL HR (dc + 0) 0 j ltac:(lia) ltac:(lia) ltac:(lia) ltac:(lia))). f_equal. lia. }
  destruct (t_zx_ok 8 lhs (16 + (lp0 + dc * 48)) (cellL 8 A (dc + 0) 1)) as [OL01 EL01].
  { intros j Hj. rewrite <- (proj1 (cellL_ok 8 3 lhs rhs lp0 rp0 D A B ltac:(lia) ltac:(lia) HL HR (dc + 0) 1 j ltac:(lia) ltac:(lia) ltac:(lia) ltac:(lia))). f_equal. lia. }
  destruct (t_zx_ok 8 lhs (32 + (lp0 + dc * 48)) (cellL 8 A (dc + 0) 2)) as [OL02 EL02].
  { intros j Hj. rewrite <- (proj1 (cellL_ok 8 3 lhs rhs lp0 rp0 D A B ltac:(lia) ltac:(lia) HL HR (dc + 0) 2 j ltac:(lia) ltac:(lia) ltac:(lia) ltac:(lia))). f_equal. lia. }
  eexists. exists (v_permq 68 (t_zx 8 rhs (0 + (rp0 + dc * 8)))).
  split.
  { rewrite ER0. intros i j Hi Hj. rewrite g_permq by lia. replace ((8 * (i / 4) + j) mod 8) with j by lia.
    rewrite g_wide; [replace (j <? 8) with true by lia; now rewrite Z.add_0_r|lia|replace (j <? 8) with true by lia].
    exact (proj2 (cellR_ok 8 3 lhs rhs lp0 rp0 D A B ltac:(lia) ltac:(lia) HL HR (dc + 0) j ltac:(lia) ltac:(lia) Hj)). }
  split.
  - eapply xrun_sound; [unfold AVX_regs; symex; reflexivity|].
    cbn [all_of]. repeat (apply conj; [obl|]). exact I.
  - rewrite EL00, EL01, EL02. unfold AVX_rel. do 6 eexists.
    unfold AVX_regs, acc_next, mac. rewrite ?Z.add_0_r.
    change (85 * 0) with 0. change (85 * 1) with 85. change (85 * 2) with 170. change (85 * 3) with 255.
    replace (lp0 + dc * 48 + 48) with (lp0 + (dc + 1) * 48) by lia.
    replace (rp0 + dc * 8 + 8) with (rp0 + (dc + 1) * 8) by lia. reflexivity.
Qed.
Lemma AVX_after acc dc m s : AVX_rel acc dc m s -> m <= 0 ->
  exists s', xsteps 3 8 lhs rhs AVX2_64_Kernel24x8Depth2_asm 112 s = Some (160%nat, s') /\ AVX_rel acc dc m s'.
Proof.
  intros (x0 & x1 & x2 & x3 & t2 & fl & ->) Hm. eexists. split.
  - eapply xrun_sound; [unfold AVX_regs; symex; replace (m - 1 <? 0) with true by lia; reflexivity|exact I].
  - unfold AVX_rel. do 6 eexists. reflexivity.
Qed.
Lemma AVX_start junk t0 t1 t2 fl m : length junk = 16%nat ->
  exists s acc, xsteps 18 8 lhs rhs AVX2_64_Kernel24x8Depth2_asm 0 (mk_xs junk (mk_gprs lp0 rp0 (4 * dst) m start cs t0 t1 t2) fl res) =
    Some (if m - 2 <? 0 then 115%nat else 18%nat, s) /\ AVX_rel acc 0 m s /\ (forall rc c, exists x, acc rc c = v_xor x x).
Proof.
  intros Hj. do 16 (destruct junk as [|? junk]; [discriminate|]). destruct junk; [|discriminate].
  eexists. exists (fun rc c => let x := nth (Z.to_nat (4 + 4 * rc + c)) [r; r0; r1; r2; r3; r4; r5; r6; r7; r8; r9; r10; r11; r12; r13; r14] 0 in v_xor x x).
  split; [eapply xrun_sound; [symex; reflexivity|exact I]|]. split.
  - unfold AVX_rel. do 6 eexists. unfold AVX_regs. cbv beta zeta.
    change (Z.to_nat (4 + 4 * 0 + 0)) with 4%nat. change (Z.to_nat (4 + 4 * 0 + 1)) with 5%nat. change (Z.to_nat (4 + 4 * 0 + 2)) with 6%nat. change (Z.to_nat (4 + 4 * 0 + 3)) with 7%nat. change (Z.to_nat (4 + 4 * 1 + 0)) with 8%nat. change (Z.to_nat (4 + 4 * 1 + 1)) with 9%nat. change (Z.to_nat (4 + 4 * 1 + 2)) with 10%nat. change (Z.to_nat (4 + 4 * 1 + 3)) with 11%nat. change (Z.to_nat (4 + 4 * 2 + 0)) with 12%nat. change (Z.to_nat (4 + 4 * 2 + 1)) with 13%nat. change (Z.to_nat (4 + 4 * 2 + 2)) with 14%nat. change (Z.to_nat (4 + 4 * 2 + 3)) with 15%nat.
    cbv beta iota zeta delta [nth].
    replace (lp0 + 0 * 48) with lp0 by lia. replace (rp0 + 0 * 8) with rp0 by lia. reflexivity.
  - intros rc c. eexists. reflexivity.
Qed.
Variable old : Z -> Z -> Z.
Hypothesis Hinj : forall r c r' c', 0 <= r < 3 * Z.of_nat 8 -> 0 <= c < 4 -> 0 <= r' < 3 * Z.of_nat 8 -> 0 <= c' < 4 ->
  r * 1 + c * cs = r' * 1 + c' * cs -> r = r' /\ c = c'.
Hypothesis Hold : forall r c, 0 <= r < 3 * Z.of_nat 8 -> 0 <= c < 4 -> res (dst + (r * 1 + c * cs)) = Some (old r c).
Lemma AVX_finish0 acc dc m s : AVX_rel acc dc m s -> start = 0 ->
  exists s', xsteps 14 8 lhs rhs AVX2_64_Kernel24x8Depth2_asm 160 s = Some (186%nat, s') /\
    xs_dst s' = storesT 8 res (map (fun p => (4 * fst p, snd p)) (store_list 8 dst cs AVX_qs (acc))).
Proof.
  intros (x0 & x1 & x2 & x3 & t2 & fl & ->) Hst.
  destruct (stores_finish 8 3 dst cs res old ltac:(lia) ltac:(lia) Hinj Hold AVX_qs AVX_qs_ok (acc)) as (S1 & _ & _).
  eexists. split.
  - etransitivity; [apply (xsteps_app 2 12); eapply xrun_sound; [unfold AVX_regs; symex; reflexivity|exact I]|].
    rewrite Z.land_diag. replace (start =? 0) with true by lia. cbv iota.
    eapply xrun_sound; [symex; reflexivity|].
    cbn [all_of].
     replace (0 + 4 * dst + 0) with (4 * (dst + (Z.of_nat 8 * 0 + 0 * cs))) by lia.
     replace (32 + 4 * dst + 0) with (4 * (dst + (Z.of_nat 8 * 1 + 0 * cs))) by lia.
     replace (64 + 4 * dst + 0) with (4 * (dst + (Z.of_nat 8 * 2 + 0 * cs))) by lia.
     replace (0 + 4 * dst + (cs * 2 ^ 2) * 1) with (4 * (dst + (Z.of_nat 8 * 0 + 1 * cs))) by lia.
     replace (32 + 4 * dst + (cs * 2 ^ 2) * 1) with (4 * (dst + (Z.of_nat 8 * 1 + 1 * cs))) by lia.
     replace (64 + 4 * dst + (cs * 2 ^ 2) * 1) with (4 * (dst + (Z.of_nat 8 * 2 + 1 * cs))) by lia.
     replace (0 + 4 * dst + (cs * 2 ^ 2) * 2) with (4 * (dst + (Z.of_nat 8 * 0 + 2 * cs))) by lia.
     replace (32 + 4 * dst + (cs * 2 ^ 2) * 2) with (4 * (dst + (Z.of_nat 8 * 1 + 2 * cs))) by lia.
     replace (64 + 4 * dst + (cs * 2 ^ 2) * 2) with (4 * (dst + (Z.of_nat 8 * 2 + 2 * cs))) by lia.
     replace (0 + 4 * dst + (cs * 2 ^ 2 + cs * 2 ^ 2 * 2) * 1) with (4 * (dst + (Z.of_nat 8 * 0 + 3 * cs))) by lia.
     replace (32 + 4 * dst + (cs * 2 ^ 2 + cs * 2 ^ 2 * 2) * 1) with (4 * (dst + (Z.of_nat 8 * 1 + 3 * cs))) by lia.
     replace (64 + 4 * dst + (cs * 2 ^ 2 + cs * 2 ^ 2 * 2) * 1) with (4 * (dst + (Z.of_nat 8 * 2 + 3 * cs))) by lia.
     
    unfold store_list, AVX_qs in S1. cbn [map fst snd store_obls all_of] in S1. exact S1.
  - cbn [xs_dst].
     replace (0 + 4 * dst + 0) with (4 * (dst + (Z.of_nat 8 * 0 + 0 * cs))) by lia.
     replace (32 + 4 * dst + 0) with (4 * (dst + (Z.of_nat 8 * 1 + 0 * cs))) by lia.
     replace (64 + 4 * dst + 0) with (4 * (dst + (Z.of_nat 8 * 2 + 0 * cs))) by lia.
     replace (0 + 4 * dst + (cs * 2 ^ 2) * 1) with (4 * (dst + (Z.of_nat 8 * 0 + 1 * cs))) by lia.
     replace (32 + 4 * dst + (cs * 2 ^ 2) * 1) with (4 * (dst + (Z.of_nat 8 * 1 + 1 * cs))) by lia.
     replace (64 + 4 * dst + (cs * 2 ^ 2) * 1) with (4 * (dst + (Z.of_nat 8 * 2 + 1 * cs))) by lia.
     replace (0 + 4 * dst + (cs * 2 ^ 2) * 2) with (4 * (dst + (Z.of_nat 8 * 0 + 2 * cs))) by lia.
     replace (32 + 4 * dst + (cs * 2 ^ 2) * 2) with (4 * (dst + (Z.of_nat 8 * 1 + 2 * cs))) by lia.
     replace (64 + 4 * dst + (cs * 2 ^ 2) * 2) with (4 * (dst + (Z.of_nat 8 * 2 + 2 * cs))) by lia.
     replace (0 + 4 * dst + (cs * 2 ^ 2 + cs * 2 ^ 2 * 2) * 1) with (4 * (dst + (Z.of_nat 8 * 0 + 3 * cs))) by lia.
     replace (32 + 4 * dst + (cs * 2 ^ 2 + cs * 2 ^ 2 * 2) * 1) with (4 * (dst + (Z.of_nat 8 * 1 + 3 * cs))) by lia.
     replace (64 + 4 * dst + (cs * 2 ^ 2 + cs * 2 ^ 2 * 2) * 1) with (4 * (dst + (Z.of_nat 8 * 2 + 3 * cs))) by lia.
    unfold store_list, AVX_qs. cbn [map fst snd storesT]. reflexivity.
Qed.
Lemma AVX_finish1 acc dc m s : AVX_rel acc dc m s -> start <> 0 ->
  exists s', xsteps 26 8 lhs rhs AVX2_64_Kernel24x8Depth2_asm 160 s = Some (186%nat, s') /\
    xs_dst s' = storesT 8 res (map (fun p => (4 * fst p, snd p)) (store_list 8 dst cs AVX_qs (fun rc c => v_paddd 8 (t_load 8 res (4 * (dst + (Z.of_nat 8 * rc + c * cs)))) (acc rc c)))).
Proof.
  intros (x0 & x1 & x2 & x3 & t2 & fl & ->) Hst.
  destruct (stores_finish 8 3 dst cs res old ltac:(lia) ltac:(lia) Hinj Hold AVX_qs AVX_qs_ok (fun rc c => v_paddd 8 (t_load 8 res (4 * (dst + (Z.of_nat 8 * rc + c * cs)))) (acc rc c))) as (S1 & _ & _).
  eexists. split.
  - etransitivity; [apply (xsteps_app 2 24); eapply xrun_sound; [unfold AVX_regs; symex; reflexivity|exact I]|].
    rewrite Z.land_diag. replace (start =? 0) with false by lia. cbv iota.
    eapply xrun_sound; [symex; reflexivity|].
    cbn [all_of].
     replace (0 + 4 * dst + 0) with (4 * (dst + (Z.of_nat 8 * 0 + 0 * cs))) by lia.
     replace (32 + 4 * dst + 0) with (4 * (dst + (Z.of_nat 8 * 1 + 0 * cs))) by lia.
     replace (64 + 4 * dst + 0) with (4 * (dst + (Z.of_nat 8 * 2 + 0 * cs))) by lia.
     replace (0 + 4 * dst + (cs * 2 ^ 2) * 1) with (4 * (dst + (Z.of_nat 8 * 0 + 1 * cs))) by lia.
     replace (32 + 4 * dst + (cs * 2 ^ 2) * 1) with (4 * (dst + (Z.of_nat 8 * 1 + 1 * cs))) by lia.
     replace (64 + 4 * dst + (cs * 2 ^ 2) * 1) with (4 * (dst + (Z.of_nat 8 * 2 + 1 * cs))) by lia.
     replace (0 + 4 * dst + (cs * 2 ^ 2) * 2) with (4 * (dst + (Z.of_nat 8 * 0 + 2 * cs))) by lia.
     replace (32 + 4 * dst + (cs * 2 ^ 2) * 2) with (4 * (dst + (Z.of_nat 8 * 1 + 2 * cs))) by lia.
     replace (64 + 4 * dst + (cs * 2 ^ 2) * 2) with (4 * (dst + (Z.of_nat 8 * 2 + 2 * cs))) by lia.
     replace (0 + 4 * dst + (cs * 2 ^ 2 + cs * 2 ^ 2 * 2) * 1) with (4 * (dst + (Z.of_nat 8 * 0 + 3 * cs))) by lia.
     replace (32 + 4 * dst + (cs * 2 ^ 2 + cs * 2 ^ 2 * 2) * 1) with (4 * (dst + (Z.of_nat 8 * 1 + 3 * cs))) by lia.
     replace (64 + 4 * dst + (cs * 2 ^ 2 + cs * 2 ^ 2 * 2) * 1) with (4 * (dst + (Z.of_nat 8 * 2 + 3 * cs))) by lia.
     split; [exact (proj1 (load_finish 8 3 dst cs res old ltac:(lia) ltac:(lia) Hinj Hold 0 0 ltac:(lia) ltac:(lia)))|]. split; [exact (proj1 (load_finish 8 3 dst cs res old ltac:(lia) ltac:(lia) Hinj Hold 1 0 ltac:(lia) ltac:(lia)))|]. split; [exact (proj1 (load_finish 8 3 dst cs res old ltac:(lia) ltac:(lia) Hinj Hold 2 0 ltac:(lia) ltac:(lia)))|]. split; [exact (proj1 (load_finish 8 3 dst cs res old ltac:(lia) ltac:(lia) Hinj Hold 0 1 ltac:(lia) ltac:(lia)))|]. split; [exact (proj1 (load_finish 8 3 dst cs res old ltac:(lia) ltac:(lia) Hinj Hold 1 1 ltac:(lia) ltac:(lia)))|]. split; [exact (proj1 (load_finish 8 3 dst cs res old ltac:(lia) ltac:(lia) Hinj Hold 2 1 ltac:(lia) ltac:(lia)))|]. split; [exact (proj1 (load_finish 8 3 dst cs res old ltac:(lia) ltac:(lia) Hinj Hold 0 2 ltac:(lia) ltac:(lia)))|]. split; [exact (proj1 (load_finish 8 3 dst cs res old ltac:(lia) ltac:(lia) Hinj Hold 1 2 ltac:(lia) ltac:(lia)))|]. split; [exact (proj1 (load_finish 8 3 dst cs res old ltac:(lia) ltac:(lia) Hinj Hold 2 2 ltac:(lia) ltac:(lia)))|]. split; [exact (proj1 (load_finish 8 3 dst cs res old ltac:(lia) ltac:(lia) Hinj Hold 0 3 ltac:(lia) ltac:(lia)))|]. split; [exact (proj1 (load_finish 8 3 dst cs res old ltac:(lia) ltac:(lia) Hinj Hold 1 3 ltac:(lia) ltac:(lia)))|]. split; [exact (proj1 (load_finish 8 3 dst cs res old ltac:(lia) ltac:(lia) Hinj Hold 2 3 ltac:(lia) ltac:(lia)))|].
    unfold store_list, AVX_qs in S1. cbn [map fst snd store_obls all_of] in S1. exact S1.
  - cbn [xs_dst].
     replace (0 + 4 * dst + 0) with (4 * (dst + (Z.of_nat 8 * 0 + 0 * cs))) by lia.
     replace (32 + 4 * dst + 0) with (4 * (dst + (Z.of_nat 8 * 1 + 0 * cs))) by lia.
     replace (64 + 4 * dst + 0) with (4 * (dst + (Z.of_nat 8 * 2 + 0 * cs))) by lia.
     replace (0 + 4 * dst + (cs * 2 ^ 2) * 1) with (4 * (dst + (Z.of_nat 8 * 0 + 1 * cs))) by lia.
     replace (32 + 4 * dst + (cs * 2 ^ 2) * 1) with (4 * (dst + (Z.of_nat 8 * 1 + 1 * cs))) by lia.
     replace (64 + 4 * dst + (cs * 2 ^ 2) * 1) with (4 * (dst + (Z.of_nat 8 * 2 + 1 * cs))) by lia.
     replace (0 + 4 * dst + (cs * 2 ^ 2) * 2) with (4 * (dst + (Z.of_nat 8 * 0 + 2 * cs))) by lia.
     replace (32 + 4 * dst + (cs * 2 ^ 2) * 2) with (4 * (dst + (Z.of_nat 8 * 1 + 2 * cs))) by lia.
     replace (64 + 4 * dst + (cs * 2 ^ 2) * 2) with (4 * (dst + (Z.of_nat 8 * 2 + 2 * cs))) by lia.
     replace (0 + 4 * dst + (cs * 2 ^ 2 + cs * 2 ^ 2 * 2) * 1) with (4 * (dst + (Z.of_nat 8 * 0 + 3 * cs))) by lia.
     replace (32 + 4 * dst + (cs * 2 ^ 2 + cs * 2 ^ 2 * 2) * 1) with (4 * (dst + (Z.of_nat 8 * 1 + 3 * cs))) by lia.
     replace (64 + 4 * dst + (cs * 2 ^ 2 + cs * 2 ^ 2 * 2) * 1) with (4 * (dst + (Z.of_nat 8 * 2 + 3 * cs))) by lia.
    unfold store_list, AVX_qs. cbn [map fst snd storesT]. reflexivity.
Qed.
End AVX.

(* ------------------------------------------------------------------ *)
(* SSE4_32_Kernel4x4Depth2_asm *)
Definition SSE32_qs : list (Z * Z) := [(0, 0); (1, 0); (2, 0); (3, 0)].
Lemma SSE32_qs_ok : NoDup SSE32_qs /\ forall c rc, In (c, rc) SSE32_qs <-> 0 <= c < 4 /\ 0 <= rc < 1.
Proof.
  unfold SSE32_qs. split.
  - repeat constructor; cbn [In]; intuition discriminate.
  - intros c rc. cbn [In]. split; [intuition (match goal with H : (_, _) = _ |- _ => injection H as <- <- end; lia)|].
    intros [Hc Hr]. assert (c = 0 \/ c = 1 \/ c = 2 \/ c = 3) as C4 by lia. assert (rc = 0) by lia. subst rc.
    destruct C4 as [-> | [-> | [-> | ->]]]; tauto.
Qed.
Section SSE32.
Variables (lhs rhs : mem) (lp0 rp0 D dst start cs : Z) (res : mem) (A B : Z -> Z -> Z).
Hypothesis HL : forall w d, 0 <= w < 1 * Z.of_nat 4 -> 0 <= d < D ->
  lhs (lp0 + ((d / 2 * 1 + w / Z.of_nat 4) * (Z.of_nat 4 * 2) + (d mod 2 + w mod Z.of_nat 4 * 2))) = Some (A w d) /\ 0 <= A w d < 256.
Hypothesis HR : forall c d, 0 <= c < 4 -> 0 <= d < D ->
  rhs (rp0 + (d / 2 * 8 + (d mod 2 + c * 2))) = Some (B c d) /\ 0 <= B c d < 256.
Definition SSE32_regs (x0 x1 x2 x3 : reg) (a : Z -> Z -> reg) : list reg :=
  [x0; x1; x2; x3; a 0 0; a 0 1; a 0 2; a 0 3].
Definition SSE32_rel (acc : Z -> Z -> reg) (dc m : Z) (s : xstate) : Prop :=
  exists x0 x1 x2 x3 t0 t1 t2 fl, s = mk_xs (SSE32_regs x0 x1 x2 x3 acc)
    (mk_gprs (lp0 + dc * 8) (rp0 + dc * 8) (4 * dst) m start cs t0 t1 t2) fl res.
Lemma SSE32_loop2 acc dc m s : SSE32_rel acc dc m s -> 0 <= dc -> 2 * dc + 4 <= D ->
  exists s' R0 R1, rhs_words 4 R0 (cellR B dc) /\ rhs_words 4 R1 (cellR B (dc + 1)) /\
    xsteps 34 4 lhs rhs SSE4_32_Kernel4x4Depth2_asm 7 s = Some (if negb ((0 <=? m) && (m <? 2)) && negb (m - 2 =? 0) then 7%nat else 41%nat, s') /\
    SSE32_rel (acc_next 4 A (dc + 1) R1 (acc_next 4 A dc R0 acc)) (dc + 2) (m - 2) s'.
Proof.
  intros (x0 & x1 & x2 & x3 & t0 & t1 & t2 & fl & ->) Hd HD.
  destruct (t_zx_ok 4 rhs (0 + (rp0 + dc * 8)) (cellR B (dc + 0))) as [OR0 ER0].
  { intros j Hj. rewrite <- (proj1 (cellR_ok 4 1 lhs rhs lp0 rp0 D A B ltac:(lia) ltac:(lia) HL HR (dc + 0) j ltac:(lia) ltac:(lia) ltac:(lia))). f_equal. lia. }
  destruct (t_zx_ok 4 lhs (0 + (lp0 + dc * 8)) (cellL 4 A (dc + 0) 0)) as [OL00 EL00].
  { intros j Hj. rewrite <- (proj1 (cellL_ok 4 1 lhs rhs lp0 rp0 D A B ltac:(lia) ltac:(lia) HL HR (dc + 0) 0 j ltac:(lia) ltac:(lia) ltac:(lia) ltac:(lia))). f_equal. lia. }
  destruct (t_zx_ok 4 rhs (8 + (rp0 + dc * 8)) (cellR B (dc + 1))) as [OR1 ER1].
  { intros j Hj. rewrite <- (proj1 (cellR_ok 4 1 lhs rhs lp0 rp0 D A B ltac:(lia) ltac:(lia) HL HR (dc + 1) j ltac:(lia) ltac:(lia) ltac:(lia))). f_equal. lia. }
  destruct (t_zx_ok 4 lhs (8 + (lp0 + dc * 8)) (cellL 4 A (dc + 1) 0)) as [OL10 EL10].
  { intros j Hj. rewrite <- (proj1 (cellL_ok 4 1 lhs rhs lp0 rp0 D A B ltac:(lia) ltac:(lia) HL HR (dc + 1) 0 j ltac:(lia) ltac:(lia) ltac:(lia) ltac:(lia))). f_equal. lia. }
  eexists. exists (wide 4 (cellR B (dc + 0))). exists (wide 4 (cellR B (dc + 1))).
  split; [rewrite <- (Z.add_0_r dc) at 2; exact (rhs_words_4 (cellR B (dc + 0)) (fun j Hj => proj2 (cellR_ok 4 1 lhs rhs lp0 rp0 D A B ltac:(lia) ltac:(lia) HL HR (dc + 0) j ltac:(lia) ltac:(lia) Hj)))|].
  split; [exact (rhs_words_4 (cellR B (dc + 1)) (fun j Hj => proj2 (cellR_ok 4 1 lhs rhs lp0 rp0 D A B ltac:(lia) ltac:(lia) HL HR (dc + 1) j ltac:(lia) ltac:(lia) Hj)))|].
  split.
  - eapply xrun_sound; [unfold SSE32_regs; symex; reflexivity|].
    cbn [all_of]. repeat (apply conj; [obl|]). exact I.
  - rewrite EL00, EL10, ER0, ER1. unfold SSE32_rel. do 8 eexists.
    unfold SSE32_regs, acc_next, mac. rewrite ?Z.add_0_r.
    change (85 * 0) with 0. change (85 * 1) with 85. change (85 * 2) with 170. change (85 * 3) with 255.
    replace (lp0 + dc * 8 + 16) with (lp0 + (dc + 2) * 8) by lia.
    replace (rp0 + dc * 8 + 16) with (rp0 + (dc + 2) * 8) by lia. reflexivity.
Qed.
Lemma SSE32_loop1 acc dc m s : SSE32_rel acc dc m s -> 0 <= dc -> 2 * dc + 2 <= D ->
  exists s' R0, rhs_words 4 R0 (cellR B dc) /\
    xsteps 18 4 lhs rhs SSE4_32_Kernel4x4Depth2_asm 44 s = Some (if negb (m - 1 =? 0) then 44%nat else 62%nat, s') /\
    SSE32_rel (acc_next 4 A dc R0 acc) (dc + 1) (m - 1) s'.
Proof.
  intros (x0 & x1 & x2 & x3 & t0 & t1 & t2 & fl & ->) Hd HD.
  destruct (t_zx_ok 4 rhs (0 + (rp0 + dc * 8)) (cellR B (dc + 0))) as [OR0 ER0].
  { intros j Hj. rewrite <- (proj1 (cellR_ok 4 1 lhs rhs lp0 rp0 D A B ltac:(lia) ltac:(lia) HL HR (dc + 0) j ltac:(lia) ltac:(lia) ltac:(lia))). f_equal. lia. }
  destruct (t_zx_ok 4 lhs (0 + (lp0 + dc * 8)) (cellL 4 A (dc + 0) 0)) as [OL00 EL00].
  { intros j Hj. rewrite <- (proj1 (cellL_ok 4 1 lhs rhs lp0 rp0 D A B ltac:(lia) ltac:(lia) HL HR (dc + 0) 0 j ltac:(lia) ltac:(lia) ltac:(lia) ltac:(lia))). f_equal. lia. }
  eexists. exists (wide 4 (cellR B (dc + 0))).
  split; [rewrite <- (Z.add_0_r dc) at 2; exact (rhs_words_4 (cellR B (dc + 0)) (fun j Hj => proj2 (cellR_ok 4 1 lhs rhs lp0 rp0 D A B ltac:(lia) ltac:(lia) HL HR (dc + 0) j ltac:(lia) ltac:(lia) Hj)))|].
  split.
  - eapply xrun_sound; [unfold SSE32_regs; symex; reflexivity|].
    cbn [all_of]. repeat (apply conj; [obl|]). exact I.
  - rewrite EL00, ER0. unfold SSE32_rel. do 8 eexists.
    unfold SSE32_regs, acc_next, mac. rewrite ?Z.add_0_r.
    change (85 * 0) with 0. change (85 * 1) with 85. change (85 * 2) with 170. change (85 * 3) with 255.
    replace (lp0 + dc * 8 + 8) with (lp0 + (dc + 1) * 8) by lia.
    replace (rp0 + dc * 8 + 8) with (rp0 + (dc + 1) * 8) by lia. reflexivity.
Qed.
Lemma SSE32_after acc dc m s : SSE32_rel acc dc m s -> m <= 0 ->
  exists s', xsteps 3 4 lhs rhs SSE4_32_Kernel4x4Depth2_asm 41 s = Some (62%nat, s') /\ SSE32_rel acc dc m s'.
Proof.
  intros (x0 & x1 & x2 & x3 & t0 & t1 & t2 & fl & ->) Hm. eexists. split.
  - eapply xrun_sound; [unfold SSE32_regs; symex; replace (m - 1 <? 0) with true by lia; reflexivity|exact I].
  - unfold SSE32_rel. do 8 eexists. reflexivity.
Qed.
Lemma SSE32_start junk t0 t1 t2 fl m : length junk = 8%nat ->
  exists s acc, xsteps 7 4 lhs rhs SSE4_32_Kernel4x4Depth2_asm 0 (mk_xs junk (mk_gprs lp0 rp0 (4 * dst) m start cs t0 t1 t2) fl res) =
    Some (if m - 2 <? 0 then 44%nat else 7%nat, s) /\ SSE32_rel acc 0 m s /\ (forall rc c, exists x, acc rc c = v_xor x x).
Proof.
  intros Hj. do 8 (destruct junk as [|? junk]; [discriminate|]). destruct junk; [|discriminate].
  eexists. exists (fun rc c => let x := nth (Z.to_nat (4 + 4 * rc + c)) [r; r0; r1; r2; r3; r4; r5; r6] 0 in v_xor x x).
  split; [eapply xrun_sound; [symex; reflexivity|exact I]|]. split.
  - unfold SSE32_rel. do 8 eexists. unfold SSE32_regs. cbv beta zeta.
    change (Z.to_nat (4 + 4 * 0 + 0)) with 4%nat. change (Z.to_nat (4 + 4 * 0 + 1)) with 5%nat. change (Z.to_nat (4 + 4 * 0 + 2)) with 6%nat. change (Z.to_nat (4 + 4 * 0 + 3)) with 7%nat.
    cbv beta iota zeta delta [nth].
    replace (lp0 + 0 * 8) with lp0 by lia. replace (rp0 + 0 * 8) with rp0 by lia. reflexivity.
  - intros rc c. eexists. reflexivity.
Qed.
Variable old : Z -> Z -> Z.
Hypothesis Hinj : forall r c r' c', 0 <= r < 1 * Z.of_nat 4 -> 0 <= c < 4 -> 0 <= r' < 1 * Z.of_nat 4 -> 0 <= c' < 4 ->
  r * 1 + c * cs = r' * 1 + c' * cs -> r = r' /\ c = c'.
Hypothesis Hold : forall r c, 0 <= r < 1 * Z.of_nat 4 -> 0 <= c < 4 -> res (dst + (r * 1 + c * cs)) = Some (old r c).
Lemma SSE32_finish0 acc dc m s : SSE32_rel acc dc m s -> start = 0 ->
  exists s', xsteps 10 4 lhs rhs SSE4_32_Kernel4x4Depth2_asm 62 s = Some (77%nat, s') /\
    xs_dst s' = storesT 4 res (map (fun p => (4 * fst p, snd p)) (store_list 4 dst cs SSE32_qs (acc))).
Proof.
  intros (x0 & x1 & x2 & x3 & t0 & t1 & t2 & fl & ->) Hst.
  destruct (stores_finish 4 1 dst cs res old ltac:(lia) ltac:(lia) Hinj Hold SSE32_qs SSE32_qs_ok (acc)) as (S1 & _ & _).
  eexists. split.
  - etransitivity; [apply (xsteps_app 5 5); eapply xrun_sound; [unfold SSE32_regs; symex; reflexivity|exact I]|].
    rewrite Z.land_diag. replace (start =? 0) with true by lia. cbv iota.
    eapply xrun_sound; [symex; reflexivity|].
    cbn [all_of].
     replace (0 + 4 * dst + 0) with (4 * (dst + (Z.of_nat 4 * 0 + 0 * cs))) by lia.
     replace (0 + 4 * dst + (cs * 2 ^ 2) * 1) with (4 * (dst + (Z.of_nat 4 * 0 + 1 * cs))) by lia.
     replace (0 + 4 * dst + (cs * 2 ^ 2) * 2) with (4 * (dst + (Z.of_nat 4 * 0 + 2 * cs))) by lia.
     replace (0 + 4 * dst + (cs * 2 ^ 2 + cs * 2 ^ 2 * 2) * 1) with (4 * (dst + (Z.of_nat 4 * 0 + 3 * cs))) by lia.
     
    unfold store_list, SSE32_qs in S1. cbn [map fst snd store_obls all_of] in S1. exact S1.
  - cbn [xs_dst].
     replace (0 + 4 * dst + 0) with (4 * (dst + (Z.of_nat 4 * 0 + 0 * cs))) by lia.
     replace (0 + 4 * dst + (cs * 2 ^ 2) * 1) with (4 * (dst + (Z.of_nat 4 * 0 + 1 * cs))) by lia.
     replace (0 + 4 * dst + (cs * 2 ^ 2) * 2) with (4 * (dst + (Z.of_nat 4 * 0 + 2 * cs))) by lia.
     replace (0 + 4 * dst + (cs * 2 ^ 2 + cs * 2 ^ 2 * 2) * 1) with (4 * (dst + (Z.of_nat 4 * 0 + 3 * cs))) by lia.
    unfold store_list, SSE32_qs. cbn [map fst snd storesT]. reflexivity.
Qed.
Lemma SSE32_finish1 acc dc m s : SSE32_rel acc dc m s -> start <> 0 ->
  exists s', xsteps 15 4 lhs rhs SSE4_32_Kernel4x4Depth2_asm 62 s = Some (77%nat, s') /\
    xs_dst s' = storesT 4 res (map (fun p => (4 * fst p, snd p)) (store_list 4 dst cs SSE32_qs (fun rc c => v_paddd 4 (t_load 4 res (4 * (dst + (Z.of_nat 4 * rc + c * cs)))) (acc rc c)))).
Proof.
  intros (x0 & x1 & x2 & x3 & t0 & t1 & t2 & fl & ->) Hst.
  destruct (stores_finish 4 1 dst cs res old ltac:(lia) ltac:(lia) Hinj Hold SSE32_qs SSE32_qs_ok (fun rc c => v_paddd 4 (t_load 4 res (4 * (dst + (Z.of_nat 4 * rc + c * cs)))) (acc rc c))) as (S1 & _ & _).
  eexists. split.
  - etransitivity; [apply (xsteps_app 5 10); eapply xrun_sound; [unfold SSE32_regs; symex; reflexivity|exact I]|].
    rewrite Z.land_diag. replace (start =? 0) with false by lia. cbv iota.
    eapply xrun_sound; [symex; reflexivity|].
    cbn [all_of].
     replace (0 + 4 * dst + 0) with (4 * (dst + (Z.of_nat 4 * 0 + 0 * cs))) by lia.
     replace (0 + 4 * dst + (cs * 2 ^ 2) * 1) with (4 * (dst + (Z.of_nat 4 * 0 + 1 * cs))) by lia.
     replace (0 + 4 * dst + (cs * 2 ^ 2) * 2) with (4 * (dst + (Z.of_nat 4 * 0 + 2 * cs))) by lia.
     replace (0 + 4 * dst + (cs * 2 ^ 2 + cs * 2 ^ 2 * 2) * 1) with (4 * (dst + (Z.of_nat 4 * 0 + 3 * cs))) by lia.
     split; [exact (proj1 (load_finish 4 1 dst cs res old ltac:(lia) ltac:(lia) Hinj Hold 0 0 ltac:(lia) ltac:(lia)))|]. split; [exact (proj1 (load_finish 4 1 dst cs res old ltac:(lia) ltac:(lia) Hinj Hold 0 1 ltac:(lia) ltac:(lia)))|]. split; [exact (proj1 (load_finish 4 1 dst cs res old ltac:(lia) ltac:(lia) Hinj Hold 0 2 ltac:(lia) ltac:(lia)))|]. split; [exact (proj1 (load_finish 4 1 dst cs res old ltac:(lia) ltac:(lia) Hinj Hold 0 3 ltac:(lia) ltac:(lia)))|].
    unfold store_list, SSE32_qs in S1. cbn [map fst snd store_obls all_of] in S1. exact S1.
  - cbn [xs_dst].
     replace (0 + 4 * dst + 0) with (4 * (dst + (Z.of_nat 4 * 0 + 0 * cs))) by lia.
     replace (0 + 4 * dst + (cs * 2 ^ 2) * 1) with (4 * (dst + (Z.of_nat 4 * 0 + 1 * cs))) by lia.
     replace (0 + 4 * dst + (cs * 2 ^ 2) * 2) with (4 * (dst + (Z.of_nat 4 * 0 + 2 * cs))) by lia.
     replace (0 + 4 * dst + (cs * 2 ^ 2 + cs * 2 ^ 2 * 2) * 1) with (4 * (dst + (Z.of_nat 4 * 0 + 3 * cs))) by lia.
    unfold store_list, SSE32_qs. cbn [map fst snd storesT]. reflexivity.
Qed.
End SSE32.
