(* Arm64Int8.v: the blocks of the AArch64 int8 kernel, executed symbolically *)
From Verif Require Import Base BaseLemmas CommonModel PackModel GemmSpec ComputeModel KernelSpec SimdModel X86Model X86Proofs X86Loop
  ArmModel ArmKernels ArmProofs ArmLoop Arm64Blocks ArmInt8.

#[local] Opaque t_cells t_load t_store t_load8w t_store8w load_cells v_load v_store load8w store8w vec_of
  v_movl v_mlal16 v_mull8 v_mlal8 v_mlalu8 v_padal v_padalu v_addp v_paddD v_paddd v_udot v_set8 v_rot8 v_rot32 v_trn1 v_trn2 v_put v_put2.
Ltac symex := lazy [arun astepT nth_error app fst snd avget avset agset afset amem amset as_v as_g as_f as_dst as_loc nth set_nth
  aget aset aoff_of acond_holds f_eq f_ge a_lhs a_rhs a_dst a_run a_start a_stride a_r0 a_r1
  NEON_64bit_GEMM_Int8Operands_LhsNonzero_asm].
Definition qs4x4 : list (Z * Z) := [(0, 0); (1, 0); (2, 0); (3, 0)].
Lemma qs4x4_ok : NoDup qs4x4 /\ forall c rc, In (c, rc) qs4x4 <-> 0 <= c < 4 /\ 0 <= rc < 1.
Proof.
  unfold qs4x4. split.
  - repeat constructor; cbn [In]; intuition discriminate.
  - intros c rc. cbn [In]. split; [intuition (match goal with H : (_, _) = _ |- _ => injection H as <- <- end; lia)|].
    intros [Hc Hr]. assert (rc = 0) as -> by lia. assert (c = 0 \/ c = 1 \/ c = 2 \/ c = 3) as C4 by lia.
    destruct C4 as [-> | [-> | [-> | ->]]]; tauto.
Qed.
Definition sel4 {T} (a b c d : T) (i : Z) : T := match i with 0 => a | 1 => b | 2 => c | _ => d end.
(* the words of one row and one column *)
Definition prod8 (b l : reg) : reg := v_mlal8 (v_mull8 b 0 l 0) b 1 l 1.

Section K4x4.
Variables (lhs rhs : mem) (lp0 rp0 run dst start cs : Z) (res loc : mem) (A B old : Z -> Z -> Z).
Hypothesis HA : holds_run (mk_side_fmt 4 16 CWidthMajor 1 FInt8) lhs lp0 run A.
Hypothesis HB : holds_run (mk_side_fmt 4 16 CWidthMajor 1 FInt8) rhs rp0 run B.
Hypothesis Hinj : forall r c r' c', 0 <= r < 1 * 4 -> 0 <= c < 4 -> 0 <= r' < 1 * 4 -> 0 <= c' < 4 ->
  r * 1 + c * cs = r' * 1 + c' * cs -> r = r' /\ c = c'.
Hypothesis Hold : forall r c, 0 <= r < 1 * 4 -> 0 <= c < 4 -> res (dst + (r * 1 + c * cs)) = Some (old r c).
Notation prog := NEON_64bit_GEMM_Int8Operands_LhsNonzero_asm.
Notation base := (base_of start old).
Notation cL := (rowc 4 lhs lp0).
Notation cR := (rowc 4 rhs rp0).
Definition lanes_all (acc : Z -> Z -> reg) (n : Z) : Prop := forall r c, 0 <= r < 4 -> 0 <= c < 4 -> lanes_at A B r c (acc r c) n.
Definition K4x4_regs (R0 R1 R2 R3 L0 L1 L2 L3 : reg) (a : Z -> Z -> reg) : list reg :=
  [R0; R1; R2; R3; L0; L1; L2; L3;
   prod8 R0 L0; prod8 R1 L0; prod8 R2 L0; prod8 R3 L0; prod8 R0 L1; prod8 R1 L1; prod8 R2 L1; prod8 R3 L1;
   a 0 0; a 0 1; a 0 2; a 0 3; a 1 0; a 1 1; a 1 2; a 1 3; a 2 0; a 2 1; a 2 2; a 2 3; a 3 0; a 3 1; a 3 2; a 3 3].
Definition K4x4_rel (dc m : Z) (s : astate) : Prop :=
  exists R0 R1 R2 R3 L0 L1 L2 L3 t0 t1 fl acc,
    s = mk_as (K4x4_regs R0 R1 R2 R3 L0 L1 L2 L3 acc)
          (mk_ag (lp0 + (dc + 1) * 64) (rp0 + (dc + 1) * 64) (4 * dst) m start (cs * 2 ^ 2) t0 t1) fl res loc /\
    is16 R0 (cR dc 0) /\ is16 R1 (cR dc 1) /\ is16 R2 (cR dc 2) /\ is16 R3 (cR dc 3) /\
    is16 L0 (cL dc 0) /\ is16 L1 (cL dc 1) /\ is16 L2 (cL dc 2) /\ is16 L3 (cL dc 3) /\ lanes_all acc dc.
Definition K4x4_pc (m : Z) : nat := if m =? 0 then 101 else 43.
Definition K4x4_next (R0 R1 R2 R3 L0 L1 L2 L3 : reg) (acc : Z -> Z -> reg) (r c : Z) : reg :=
  v_padal (acc r c) (prod8 (sel4 R0 R1 R2 R3 c) (sel4 L0 L1 L2 L3 r)).
Lemma K4x4_next_ok R0 R1 R2 R3 L0 L1 L2 L3 acc dc : 0 <= dc -> 16 * (dc + 1) <= run ->
  is16 R0 (cR dc 0) -> is16 R1 (cR dc 1) -> is16 R2 (cR dc 2) -> is16 R3 (cR dc 3) ->
  is16 L0 (cL dc 0) -> is16 L1 (cL dc 1) -> is16 L2 (cL dc 2) -> is16 L3 (cL dc 3) -> lanes_all acc dc ->
  lanes_all (K4x4_next R0 R1 R2 R3 L0 L1 L2 L3 acc) (dc + 1).
Proof.
  intros Hd Hr G0 G1 G2 G3 H0 H1 H2 H3 HX r c Hr' Hc. unfold K4x4_next, prod8.
  assert (EL : is16 (sel4 L0 L1 L2 L3 r) (cL dc r)).
  { assert (r = 0 \/ r = 1 \/ r = 2 \/ r = 3) as [-> | [-> | [-> | ->]]] by lia; assumption. }
  assert (ER : is16 (sel4 R0 R1 R2 R3 c) (cR dc c)).
  { assert (c = 0 \/ c = 1 \/ c = 2 \/ c = 3) as [-> | [-> | [-> | ->]]] by lia; assumption. }
  destruct (is16_isb _ _ EL) as [EL0 EL1]. destruct (is16_isb _ _ ER) as [ER0 ER1].
  apply (lanes_next A B r c _ _ _ _ _ (cL dc r) (cR dc c)); try assumption.
  - now apply HX.
  - intros j Hj. apply (rowc_ok 4 lhs lp0 run A); [lia|exact HA|lia..].
  - intros j Hj. apply (rowc_ok 4 rhs rp0 run B); [lia|exact HB|lia..].
Qed.
Ltac ldL dc r := eapply (ldrow16 4 lhs lp0 run A _ dc r HA); lia.
Ltac ldR dc r := eapply (ldrow16 4 rhs rp0 run B _ dc r HB); lia.
Lemma K4x4_loop dc m s : K4x4_rel dc m s -> 0 <= dc -> 0 < m -> 16 * (dc + 1) + m = run -> (16 | m) ->
  exists s', asteps 58 lhs rhs prog (K4x4_pc m) s = Some (K4x4_pc (m - 16), s') /\ K4x4_rel (dc + 1) (m - 16) s'.
Proof.
  intros (R0 & R1 & R2 & R3 & L0 & L1 & L2 & L3 & t0 & t1 & fl & acc & -> & G0 & G1 & G2 & G3 & H0 & H1 & H2 & H3 & HX) Hd Hm Hrun [q Hq].
  unfold K4x4_pc at 1. replace (m =? 0) with false by lia.
  eexists. split.
  - etransitivity; [eapply arun_sound; [unfold K4x4_regs; symex; reflexivity|]|].
    + cbn [all_of]. repeat apply conj; [ldL (dc + 1) 0|ldL (dc + 1) 1|ldL (dc + 1) 2|ldR (dc + 1) 0|ldR (dc + 1) 1|ldR (dc + 1) 2
        |ldR (dc + 1) 3|ldL (dc + 1) 3|exact I].
    + apply f_equal. apply f_equal2; [|reflexivity]. unfold K4x4_pc. destruct (m - 16 =? 0); reflexivity.
  - unfold K4x4_rel. do 11 eexists; exists (K4x4_next R0 R1 R2 R3 L0 L1 L2 L3 acc). split.
    { apply mk_as_eq; [reflexivity| |reflexivity|reflexivity|reflexivity]. apply mk_ag_eq; try reflexivity; lia. }
    repeat apply conj; [ldR (dc + 1) 0|ldR (dc + 1) 1|ldR (dc + 1) 2|ldR (dc + 1) 3|ldL (dc + 1) 0|ldL (dc + 1) 1|ldL (dc + 1) 2|ldL (dc + 1) 3|].
    apply K4x4_next_ok; try assumption; lia.
Qed.
Lemma K4x4_start junk t0 t1 fl : length junk = 32%nat -> 16 <= run -> (16 | run) ->
  exists k s, (k <= 43)%nat /\
    asteps k lhs rhs prog 0 (mk_as junk (mk_ag lp0 rp0 (4 * dst) run start cs t0 t1) fl res loc) = Some (K4x4_pc (run - 16), s) /\
    K4x4_rel 0 (run - 16) s.
Proof.
  intros Hj Hrun Hdiv.
  do 32 (destruct junk as [|? junk]; [discriminate Hj|]). destruct junk; [clear Hj|discriminate Hj].
  exists 43%nat. eexists. split; [lia|]. split.
  - etransitivity; [eapply arun_sound; [symex; reflexivity|cbn [all_of]; repeat apply conj;
      [ldR 0 0|ldL 0 0|ldR 0 1|ldL 0 1|ldR 0 2|ldR 0 3|ldL 0 2|ldL 0 3|exact I]]|].
    apply f_equal. apply f_equal2; [|reflexivity]. unfold K4x4_pc. destruct (run - 16 =? 0); reflexivity.
  - unfold K4x4_rel. do 11 eexists. exists (fun _ _ => 0). split.
    { apply mk_as_eq; [reflexivity| |reflexivity|reflexivity|reflexivity]. apply mk_ag_eq; try reflexivity; lia. }
    repeat apply conj; [ldR 0 0|ldR 0 1|ldR 0 2|ldR 0 3|ldL 0 0|ldL 0 1|ldL 0 2|ldL 0 3|].
    intros ? ? _ _. apply lanes_zero.
Qed.
Definition K4x4_sum (F : Z -> Z -> reg) (c : Z) : reg := v_addp (v_addp (F 0 c) (F 1 c)) (v_addp (F 2 c) (F 3 c)).
Lemma K4x4_sum_ok F n c i : 0 <= n -> lanes_all F n -> 0 <= c < 4 -> 0 <= i < 4 ->
  get 32 i (K4x4_sum F c) = wrapS 32 (sumZ (blk8 A B i c) 0 n).
Proof.
  intros Hn HF Hc Hi. unfold K4x4_sum. rewrite (addp4 _ _ _ _ i (F i c) Hi).
  - apply hs_ok; [exact Hn|now apply HF].
  - assert (i = 0 \/ i = 1 \/ i = 2 \/ i = 3) as [-> | [-> | [-> | ->]]] by lia; reflexivity.
Qed.
Lemma K4x4_finish dc s : K4x4_rel dc 0 s -> 0 <= dc -> 16 * (dc + 1) = run ->
  exists k s', (k <= 150)%nat /\ asteps k lhs rhs prog (K4x4_pc 0) s = Some (length prog, s') /\
    (forall r c, 0 <= r < 1 * 4 -> 0 <= c < 4 -> as_dst s' (dst + (r * 1 + c * cs)) =
       Some (wrapS 32 (base r c + sumZ (blk8 A B r c) 0 (run / 16)))) /\
    (forall a, (forall r c, 0 <= r < 1 * 4 -> 0 <= c < 4 -> a <> dst + (r * 1 + c * cs)) -> as_dst s' a = res a).
Proof.
  intros (R0 & R1 & R2 & R3 & L0 & L1 & L2 & L3 & t0 & t1 & fl & acc & -> & G0 & G1 & G2 & G3 & H0 & H1 & H2 & H3 & HX) Hd Hrun.
  assert (HN := K4x4_next_ok R0 R1 R2 R3 L0 L1 L2 L3 acc dc Hd ltac:(lia) G0 G1 G2 G3 H0 H1 H2 H3 HX).
  match type of HN with lanes_all ?F _ => set (N := F) in * end.
  replace (run / 16) with (dc + 1) by lia.
  destruct (Z.eqb_spec start 0) as [Es | Es].
  - destruct (stores_finishK 4 1 4 dst cs res old ltac:(lia) ltac:(lia) Hinj Hold qs4x4 qs4x4_ok (fun _ c => K4x4_sum N c)) as (S1 & _ & _).
    exists (42 + 10)%nat. eexists. split; [lia|]. split.
    + change (K4x4_pc 0) with 101%nat.
      etransitivity; [eapply asteps_app; etransitivity; [eapply arun_sound; [unfold K4x4_regs; symex; reflexivity|exact I]|]|].
      { replace (start - 0 =? 0) with true by lia. lazy [negb]. reflexivity. }
      etransitivity; [eapply arun_sound; [symex; reflexivity|]|reflexivity].
      obls_stores res qs4x4 S1.
    + apply (stores_value 1 4 dst cs res old qs4x4 (fun _ c => K4x4_sum N c)); [lia|exact Hinj|exact Hold|exact qs4x4_ok| |].
      * dst_stores res qs4x4.
      * intros rc c i Hrc Hc Hi. rewrite (K4x4_sum_ok N (dc + 1)) by (try assumption; lia). unfold base_of.
        replace (start =? 0) with true by lia. rewrite Z.add_0_l. replace (4 * rc + i) with i by lia. reflexivity.
  - pose (p0 := 4 * dst). pose (p1 := 4 * dst + cs * 2 ^ 2). pose (p2 := 4 * dst + cs * 2 ^ 2 + cs * 2 ^ 2).
    pose (p3 := 4 * dst + cs * 2 ^ 2 + cs * 2 ^ 2 + cs * 2 ^ 2).
    pose (F := fun rc c : Z => v_paddd 4 (sel4 (t_load 4 res p0) (t_load 4 res p1) (t_load 4 res p2) (t_load 4 res p3) c) (K4x4_sum N c)).
    destruct (stores_finishK 4 1 4 dst cs res old ltac:(lia) ltac:(lia) Hinj Hold qs4x4 qs4x4_ok F) as (S1 & _ & _).
    exists (42 + (13 + 5))%nat. eexists. split; [lia|]. split.
    + change (K4x4_pc 0) with 101%nat.
      etransitivity; [eapply asteps_app; etransitivity; [eapply arun_sound; [unfold K4x4_regs; symex; reflexivity|exact I]|]|].
      { replace (start - 0 =? 0) with false by lia. lazy [negb]. reflexivity. }
      etransitivity; [eapply asteps_app; eapply arun_sound; [symex; reflexivity|]|].
      { cbn [all_of]. repeat apply conj; try exact I.
        - eapply (ldW 1 4 dst cs res old _ 0 0); [lia|exact Hold|lia..].
        - eapply (ldW 1 4 dst cs res old _ 0 1); [lia|exact Hold|lia..].
        - eapply (ldW 1 4 dst cs res old _ 0 2); [lia|exact Hold|lia..].
        - eapply (ldW 1 4 dst cs res old _ 0 3); [lia|exact Hold|lia..]. }
      etransitivity; [eapply arun_sound; [symex; reflexivity|]|reflexivity].
      obls_stores res qs4x4 S1.
    + apply (stores_value 1 4 dst cs res old qs4x4 F); [lia|exact Hinj|exact Hold|exact qs4x4_ok| |].
      * dst_stores res qs4x4.
      * intros rc c i Hrc Hc Hi. unfold F. rewrite g_paddd by lia. rewrite (K4x4_sum_ok N (dc + 1)) by (try assumption; lia). unfold base_of.
        replace (start =? 0) with false by lia. replace (4 * rc + i) with i by lia. rewrite wrapS_add_r by lia.
        assert (EL : get 32 i (sel4 (t_load 4 res p0) (t_load 4 res p1) (t_load 4 res p2) (t_load 4 res p3) c) = wrapS 32 (old i c)).
        { assert (c = 0 \/ c = 1 \/ c = 2 \/ c = 3) as [-> | [-> | [-> | ->]]] by lia; cbn [sel4];
            (eapply (ldW 1 4 dst cs res old _ 0); [lia|exact Hold|unfold p0, p1, p2, p3; lia|lia|lia|exact Hi]). }
        rewrite EL. rewrite wrapS_add_l by lia. reflexivity.
Qed.
Lemma K4x4_ok junk t0 t1 fl fuel : length junk = 32%nat -> 16 <= run -> (16 | run) ->
  (193 + Z.to_nat (run / 16) * 58 <= fuel)%nat ->
  exists s', aexec fuel lhs rhs prog 0 (mk_as junk (mk_ag lp0 rp0 (4 * dst) run start cs t0 t1) fl res loc) = Some s' /\
    (forall r c, 0 <= r < 1 * 4 -> 0 <= c < 4 -> as_dst s' (dst + (r * 1 + c * cs)) =
       Some (wrapS 32 (base r c + sumZ (blk8 A B r c) 0 (run / 16)))) /\
    (forall a, (forall r c, 0 <= r < 1 * 4 -> 0 <= c < 4 -> a <> dst + (r * 1 + c * cs)) -> as_dst s' a = res a).
Proof.
  intros Hj Hrun Hdiv Hfu.
  eapply (arm_whole lhs rhs prog 16 run 58 K4x4_pc K4x4_rel K4x4_loop 43 150); [lia|lia|exact Hdiv| | |lia].
  - apply K4x4_start; assumption.
  - intros s Hs. destruct Hdiv as [q Hq]. replace (run / 16) with q in Hs by lia.
    eapply K4x4_finish; [exact Hs|lia|lia].
Qed.
End K4x4.
