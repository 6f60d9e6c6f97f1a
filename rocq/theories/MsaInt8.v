(* MsaInt8.v: the blocks of the MSA int8 kernel, executed symbolically, and what it
   accumulates: adjacent pairs of products in 16 bits *)
From Verif Require Import Base BaseLemmas CommonModel PackModel GemmSpec ComputeModel KernelSpec KernelProofs SimdModel SimdProofs X86Model
  X86Proofs X86Loop ArmModel ArmProofs ArmLoop Arm64Blocks ArmInt8 Arm64Int8 MsaModel MsaKernels MsaProofs MsaBlocks.

(* levels 16b+2j and 16b+2j+1 in one signed word; the 8 words of block b *)
Definition adj16 (A B : Z -> Z -> Z) (r c b j : Z) : Z :=
  wrapS 16 (A r (16 * b + 2 * j) * B c (16 * b + 2 * j) + A r (16 * b + (2 * j + 1)) * B c (16 * b + (2 * j + 1))).
Definition blkA (A B : Z -> Z -> Z) (r c b : Z) : Z := sumZ (adj16 A B r c b) 0 8.

Section Lanes.
Variables (A B : Z -> Z -> Z) (r c : Z).
Definition mlanes (x : reg) (n : Z) : Prop := forall i, 0 <= i < 4 ->
  get 32 i x = wrapS 32 (sumZ (fun b => adj16 A B r c b (2 * i) + adj16 A B r c b (2 * i + 1)) 0 n).
Lemma mlanes_zero : mlanes (w_ldi 8 0) 0.
Proof. intros i Hi. rewrite ldi_zero. rewrite get_0 by lia. rewrite sumZ_empty by lia. reflexivity. Qed.
Lemma mlanes_next x l b f g n : 0 <= n -> mlanes x n -> is16 l f -> is16 b g ->
  (forall j, 0 <= j < 16 -> wrapS 8 (f j) = A r (16 * n + j)) -> (forall j, 0 <= j < 16 -> wrapS 8 (g j) = B c (16 * n + j)) ->
  mlanes (w_dpadd_s x (w_dotp_s l b) (w_ldi 16 1)) (n + 1).
Proof.
  intros Hn Hx Hl Hb EA EB i Hi. rewrite g_dpadd_s by lia. rewrite !ldi_one by lia. rewrite !Z.mul_1_r.
  assert (G : forall j, 0 <= j < 8 -> get 16 j (w_dotp_s l b) = adj16 A B r c n j).
  { intros j Hj. rewrite g_dotp_s by lia. rewrite !(get_getU 8) by lia. rewrite !Hl, !Hb by lia. rewrite !EA, !EB by lia. reflexivity. }
  rewrite !G by lia. rewrite Hx by lia. rewrite wrapS_add_l by lia. rewrite sumZ_last by lia. reflexivity.
Qed.
Lemma mhs_ok x n : 0 <= n -> mlanes x n ->
  wrapS 32 (get 32 0 x + get 32 1 x + get 32 2 x + get 32 3 x) = wrapS 32 (sumZ (blkA A B r c) 0 n).
Proof.
  intros Hn H. rewrite !H by lia. rewrite wrapS_4.
  f_equal. rewrite <- !sumZ_add. apply sumZ_ext. intros b _. unfold blkA. rewrite sumZ_8.
  change (2 * 0) with 0. change (2 * 1) with 2. change (2 * 2) with 4. change (2 * 3) with 6. cbn [Z.add Pos.add Pos.succ]. lia.
Qed.
End Lanes.
(* exactness, and the bound that holds in any case *)
Lemma blkA_bound A B r c b : -262144 <= blkA A B r c b <= 262144.
Proof.
  pose proof (sumZ_bound (adj16 A B r c b) 0 8 (-32768) 32768 ltac:(lia)) as H. unfold blkA.
  assert (forall i, 0 <= i < 8 -> -32768 <= adj16 A B r c b i <= 32768) as G.
  { intros i _. unfold adj16. match goal with |- context [wrapS 16 ?x] => pose proof (wrapS_range 16 x ltac:(lia)) as R end.
    unfold int_min, int_max in R. change (2 ^ (16 - 1)) with 32768 in R. lia. }
  specialize (H G). lia.
Qed.
Lemma blkA_sum A B r c n : 0 <= n -> (forall d, 0 <= d < 16 * n -> -128 <= A r d <= 127 /\ -128 <= B c d <= 127 /\ not_both_min (A r d) (B c d)) ->
  sumZ (blkA A B r c) 0 n = sumZ (fun d => A r d * B c d) 0 (16 * n).
Proof.
  intros Hn. pattern n. apply natlike_ind; [|clear n Hn; intros n Hn IH|exact Hn]; intros H.
  - rewrite !sumZ_empty by lia. reflexivity.
  - replace (Z.succ n) with (n + 1) by lia. rewrite sumZ_last by lia. rewrite IH by (intros d Hd; apply H; lia).
    replace (16 * (n + 1)) with (16 * n + 16) by lia. rewrite (sumZ_split _ 0 (16 * n) (16 * n + 16)) by lia. f_equal.
    unfold blkA. rewrite sumZ_8. unfold adj16.
    rewrite !pair_exact by (apply H; lia).
    replace (16 * n) with (0 + 16 * n) by lia. replace (0 + 16 * n + 16) with (16 + 16 * n) by lia. rewrite sumZ_shift.
    replace (sumZ (fun i => A r (i + 16 * n) * B c (i + 16 * n)) 0 16) with
      (sumZ (fun i => A r (i + 16 * n) * B c (i + 16 * n)) 0 8 + sumZ (fun i => A r (i + 16 * n) * B c (i + 16 * n)) (0 + 8) (8 + 8))
      by (symmetry; apply (sumZ_split _ 0 8 16); lia).
    rewrite sumZ_shift. rewrite !sumZ_8. cbv beta.
    assert (E : forall i, A r (i + 16 * n) * B c (i + 16 * n) = A r (0 + 16 * n + i) * B c (0 + 16 * n + i)) by (intros i; f_equal; f_equal; lia).
    rewrite !E. cbn [Z.mul Z.add Pos.add Pos.mul Pos.succ]. ring.
Qed.

#[local] Opaque t_cells t_load t_store load_cells v_load v_store vec_of
  w_ldi w_ilvr w_ilvl w_splati w_dpadd_u w_dpadd_s w_dotp_s w_hadd_s w_pckev w_addv.
Section K4x4.
Variables (lhs rhs : mem) (lp0 rp0 run dst start cs : Z) (res : mem) (A B old : Z -> Z -> Z).
Hypothesis HA : holds_run (mk_side_fmt 4 16 CWidthMajor 1 FInt8) lhs lp0 run A.
Hypothesis HB : holds_run (mk_side_fmt 4 16 CWidthMajor 1 FInt8) rhs rp0 run B.
Hypothesis Hinj : forall r c r' c', 0 <= r < 1 * 4 -> 0 <= c < 4 -> 0 <= r' < 1 * 4 -> 0 <= c' < 4 ->
  r * 1 + c * cs = r' * 1 + c' * cs -> r = r' /\ c = c'.
Hypothesis Hold : forall r c, 0 <= r < 1 * 4 -> 0 <= c < 4 -> res (dst + (r * 1 + c * cs)) = Some (old r c).
Notation prog := MSA_GEMM_Int8Operands_LhsNonzero_asm.
Notation base := (base_of start old).
Notation cL := (rowc 4 lhs lp0).
Notation cR := (rowc 4 rhs rp0).
Notation p0 := (4 * dst).
Notation p1 := (4 * (dst + cs)).
Notation p2 := (4 * (dst + cs * 2)).
Notation p3 := (4 * (dst + cs * 3)).
Definition mlanes_all (acc : Z -> Z -> reg) (n : Z) : Prop := forall r c, 0 <= r < 4 -> 0 <= c < 4 -> mlanes A B r c (acc r c) n.
Definition M4x4_regs (L0 L1 L2 L3 R0 R1 R2 R3 x0 x1 x2 x3 x4 x5 x6 : reg) (a : Z -> Z -> reg) : list reg :=
  [a 0 0; a 1 0; a 2 0; a 3 0; a 0 1; a 1 1; a 2 1; a 3 1; a 0 2; a 1 2; a 2 2; a 3 2; a 0 3; a 1 3; a 2 3; a 3 3;
   L0; L1; L2; L3; R0; R1; R2; R3; x0; x1; x2; x3; x4; x5; x6; w_ldi 16 1].
Definition M4x4_rel (dc m : Z) (s : mstate) : Prop :=
  exists L0 L1 L2 L3 R0 R1 R2 R3 x0 x1 x2 x3 x4 x5 x6 t0 t1 acc,
    s = mk_ms (M4x4_regs L0 L1 L2 L3 R0 R1 R2 R3 x0 x1 x2 x3 x4 x5 x6 acc)
          (mk_mg (lp0 + dc * 64) (rp0 + dc * 64) p0 p1 p2 p3 m start cs t0 t1) res /\
    is16 R0 (cR dc 0) /\ is16 R1 (cR dc 1) /\ is16 R2 (cR dc 2) /\ is16 R3 (cR dc 3) /\
    is16 L0 (cL dc 0) /\ is16 L1 (cL dc 1) /\ is16 L2 (cL dc 2) /\ is16 L3 (cL dc 3) /\ mlanes_all acc dc.
Definition M4x4_pc (m : Z) : nat := if m =? 0 then 71 else 27.
Definition M4x4_next (R0 R1 R2 R3 L0 L1 L2 L3 : reg) (acc : Z -> Z -> reg) (r c : Z) : reg :=
  w_dpadd_s (acc r c) (w_dotp_s (sel4 L0 L1 L2 L3 r) (sel4 R0 R1 R2 R3 c)) (w_ldi 16 1).
Lemma M4x4_next_ok R0 R1 R2 R3 L0 L1 L2 L3 acc dc : 0 <= dc -> 16 * (dc + 1) <= run ->
  is16 R0 (cR dc 0) -> is16 R1 (cR dc 1) -> is16 R2 (cR dc 2) -> is16 R3 (cR dc 3) ->
  is16 L0 (cL dc 0) -> is16 L1 (cL dc 1) -> is16 L2 (cL dc 2) -> is16 L3 (cL dc 3) -> mlanes_all acc dc ->
  mlanes_all (M4x4_next R0 R1 R2 R3 L0 L1 L2 L3 acc) (dc + 1).
Proof.
  intros Hd Hr G0 G1 G2 G3 H0 H1 H2 H3 HX r c Hr' Hc. unfold M4x4_next.
  assert (EL : is16 (sel4 L0 L1 L2 L3 r) (cL dc r)).
  { assert (r = 0 \/ r = 1 \/ r = 2 \/ r = 3) as [-> | [-> | [-> | ->]]] by lia; assumption. }
  assert (ER : is16 (sel4 R0 R1 R2 R3 c) (cR dc c)).
  { assert (c = 0 \/ c = 1 \/ c = 2 \/ c = 3) as [-> | [-> | [-> | ->]]] by lia; assumption. }
  apply (mlanes_next A B r c _ _ _ (cL dc r) (cR dc c)); try assumption.
  - now apply HX.
  - intros j Hj. apply (rowc_ok 4 lhs lp0 run A); [lia|exact HA|lia..].
  - intros j Hj. apply (rowc_ok 4 rhs rp0 run B); [lia|exact HB|lia..].
Qed.
Ltac ldL dc r := eapply (ldrow16 4 lhs lp0 run A _ dc r HA); lia.
Ltac ldR dc r := eapply (ldrow16 4 rhs rp0 run B _ dc r HB); lia.
Lemma M4x4_loop dc m s : M4x4_rel dc m s -> 0 <= dc -> 0 < m -> 16 * dc + m = run - 16 -> (16 | m) ->
  exists s', msteps 44 lhs rhs prog (M4x4_pc m) s = Some (M4x4_pc (m - 16), s') /\ M4x4_rel (dc + 1) (m - 16) s'.
Proof.
  intros (L0 & L1 & L2 & L3 & R0 & R1 & R2 & R3 & x0 & x1 & x2 & x3 & x4 & x5 & x6 & t0 & t1 & acc & -> & G0 & G1 & G2 & G3 & H0 & H1 & H2 & H3 & HX) Hd Hm Hrun [q Hq].
  unfold M4x4_pc at 1. replace (m =? 0) with false by lia.
  eexists. split.
  - etransitivity; [eapply mrun_sound; [unfold M4x4_regs; msymex prog; reflexivity|]|].
    + cbn [all_of]. repeat apply conj; [ldR (dc + 1) 0|ldL (dc + 1) 0|ldL (dc + 1) 1|ldR (dc + 1) 1|ldL (dc + 1) 2|ldR (dc + 1) 2
        |ldL (dc + 1) 3|ldR (dc + 1) 3|exact I].
    + apply f_equal. apply f_equal2; [|reflexivity]. unfold M4x4_pc. replace (m + -16) with (m - 16) by lia. destruct (m - 16 =? 0); reflexivity.
  - unfold M4x4_rel. do 17 eexists; exists (M4x4_next R0 R1 R2 R3 L0 L1 L2 L3 acc). split.
    { apply mk_ms_eq; [reflexivity| |reflexivity]. apply mk_mg_eq; try reflexivity; lia. }
    repeat apply conj; [ldR (dc + 1) 0|ldR (dc + 1) 1|ldR (dc + 1) 2|ldR (dc + 1) 3|ldL (dc + 1) 0|ldL (dc + 1) 1|ldL (dc + 1) 2|ldL (dc + 1) 3|].
    apply M4x4_next_ok; try assumption; lia.
Qed.
Lemma M4x4_start junk t0 t1 : length junk = 32%nat -> 16 <= run -> (16 | run) ->
  exists k s, (k <= 27)%nat /\
    msteps k lhs rhs prog 0 (mk_ms junk (mk_mg lp0 rp0 p0 p1 p2 p3 run start cs t0 t1) res) = Some (M4x4_pc (run - 16), s) /\
    M4x4_rel 0 (run - 16) s.
Proof.
  intros Hj Hrun Hdiv.
  do 32 (destruct junk as [|? junk]; [discriminate Hj|]). destruct junk; [clear Hj|discriminate Hj].
  exists 27%nat. eexists. split; [lia|]. split.
  - etransitivity; [eapply mrun_sound; [msymex prog; reflexivity|cbn [all_of]; repeat apply conj;
      [ldL 0 0|ldR 0 0|ldL 0 1|ldR 0 1|ldL 0 2|ldL 0 3|ldR 0 2|ldR 0 3|exact I]]|].
    apply f_equal. apply f_equal2; [|reflexivity]. unfold M4x4_pc. replace (run + -16) with (run - 16) by lia. destruct (run - 16 =? 0); reflexivity.
  - unfold M4x4_rel. do 17 eexists. exists (fun _ _ => w_ldi 8 0). split.
    { apply mk_ms_eq; [reflexivity| |reflexivity]. apply mk_mg_eq; try reflexivity; lia. }
    repeat apply conj; [ldR 0 0|ldR 0 1|ldR 0 2|ldR 0 3|ldL 0 0|ldL 0 1|ldL 0 2|ldL 0 3|].
    intros ? ? _ _. apply mlanes_zero.
Qed.
Definition M4x4_sum (F : Z -> Z -> reg) (c : Z) : reg := w_sum4 (F 0 c) (F 1 c) (F 2 c) (F 3 c).
Lemma M4x4_sum_ok F n c i : 0 <= n -> mlanes_all F n -> 0 <= c < 4 -> 0 <= i < 4 ->
  get 32 i (M4x4_sum F c) = wrapS 32 (sumZ (blkA A B i c) 0 n).
Proof.
  intros Hn HF Hc Hi. unfold M4x4_sum. rewrite (sum4_ok _ _ _ _ i (F i c) Hi).
  - apply mhs_ok; [exact Hn|now apply HF].
  - assert (i = 0 \/ i = 1 \/ i = 2 \/ i = 3) as [-> | [-> | [-> | ->]]] by lia; reflexivity.
Qed.
Lemma M4x4_finish dc s : M4x4_rel dc 0 s -> 0 <= dc -> 16 * (dc + 1) = run ->
  exists k s', (k <= 81)%nat /\ msteps k lhs rhs prog (M4x4_pc 0) s = Some (length prog, s') /\
    (forall r c, 0 <= r < 1 * 4 -> 0 <= c < 4 -> ms_dst s' (dst + (r * 1 + c * cs)) =
       Some (wrapS 32 (base r c + sumZ (blkA A B r c) 0 (run / 16)))) /\
    (forall a, (forall r c, 0 <= r < 1 * 4 -> 0 <= c < 4 -> a <> dst + (r * 1 + c * cs)) -> ms_dst s' a = res a).
Proof.
  intros (L0 & L1 & L2 & L3 & R0 & R1 & R2 & R3 & x0 & x1 & x2 & x3 & x4 & x5 & x6 & t0 & t1 & acc & -> & G0 & G1 & G2 & G3 & H0 & H1 & H2 & H3 & HX) Hd Hrun.
  assert (HN := M4x4_next_ok R0 R1 R2 R3 L0 L1 L2 L3 acc dc Hd ltac:(lia) G0 G1 G2 G3 H0 H1 H2 H3 HX).
  match type of HN with mlanes_all ?F _ => set (N := F) in * end.
  replace (run / 16) with (dc + 1) by lia.
  destruct (Z.eqb_spec start 0) as [Es | Es].
  - destruct (stores_finishK 4 1 4 dst cs res old ltac:(lia) ltac:(lia) Hinj Hold qs4x4 qs4x4_ok (fun _ c => M4x4_sum N c)) as (S1 & _ & _).
    exists (65 + 9)%nat. eexists. split; [lia|]. split.
    + change (M4x4_pc 0) with 71%nat.
      etransitivity; [eapply msteps_app; etransitivity; [eapply mrun_sound; [unfold M4x4_regs; msymex prog; reflexivity|exact I]|]|].
      { replace (start =? 0) with true by lia. reflexivity. }
      etransitivity; [eapply mrun_sound; [msymex prog; reflexivity|]|reflexivity].
      obls_stores res qs4x4 S1.
    + apply (mstores_value 1 4 dst cs res old qs4x4 (fun _ c => M4x4_sum N c)); [lia|exact Hinj|exact Hold|exact qs4x4_ok| |].
      * mdst_stores res qs4x4.
      * intros rc c i Hrc Hc Hi. rewrite (M4x4_sum_ok N (dc + 1)) by (try assumption; lia). unfold base_of.
        replace (start =? 0) with true by lia. rewrite Z.add_0_l. replace (4 * rc + i) with i by lia. reflexivity.
  - pose (F := fun rc c : Z => w_addv (M4x4_sum N c) (sel4 (t_load 4 res (p0 + 0)) (t_load 4 res (p1 + 0)) (t_load 4 res (p2 + 0)) (t_load 4 res (p3 + 0)) c)).
    destruct (stores_finishK 4 1 4 dst cs res old ltac:(lia) ltac:(lia) Hinj Hold qs4x4 qs4x4_ok F) as (S1 & _ & _).
    exists (65 + (12 + 4))%nat. eexists. split; [lia|]. split.
    + change (M4x4_pc 0) with 71%nat.
      etransitivity; [eapply msteps_app; etransitivity; [eapply mrun_sound; [unfold M4x4_regs; msymex prog; reflexivity|exact I]|]|].
      { replace (start =? 0) with false by lia. reflexivity. }
      etransitivity; [eapply msteps_app; eapply mrun_sound; [msymex prog; reflexivity|]|].
      { cbn [all_of]. repeat apply conj; try exact I.
        - eapply (ldW 1 4 dst cs res old _ 0 0); [lia|exact Hold|lia..].
        - eapply (ldW 1 4 dst cs res old _ 0 1); [lia|exact Hold|lia..].
        - eapply (ldW 1 4 dst cs res old _ 0 2); [lia|exact Hold|lia..].
        - eapply (ldW 1 4 dst cs res old _ 0 3); [lia|exact Hold|lia..]. }
      etransitivity; [eapply mrun_sound; [msymex prog; reflexivity|]|reflexivity].
      obls_stores res qs4x4 S1.
    + apply (mstores_value 1 4 dst cs res old qs4x4 F); [lia|exact Hinj|exact Hold|exact qs4x4_ok| |].
      * mdst_stores res qs4x4.
      * intros rc c i Hrc Hc Hi. unfold F. rewrite g_addv by lia. rewrite (M4x4_sum_ok N (dc + 1)) by (try assumption; lia). unfold base_of.
        replace (start =? 0) with false by lia. replace (4 * rc + i) with i by lia. rewrite wrapS_add_l by lia.
        assert (EL : get 32 i (sel4 (t_load 4 res (p0 + 0)) (t_load 4 res (p1 + 0)) (t_load 4 res (p2 + 0)) (t_load 4 res (p3 + 0)) c) = wrapS 32 (old i c)).
        { assert (c = 0 \/ c = 1 \/ c = 2 \/ c = 3) as [-> | [-> | [-> | ->]]] by lia; cbn [sel4];
            (eapply (ldW 1 4 dst cs res old _ 0); [lia|exact Hold|lia|lia|lia|exact Hi]). }
        rewrite EL. rewrite wrapS_add_r by lia. f_equal. lia.
Qed.
Lemma M4x4_ok junk t0 t1 fuel : length junk = 32%nat -> 16 <= run -> (16 | run) ->
  (108 + Z.to_nat (run / 16) * 44 <= fuel)%nat ->
  exists s', mexec fuel lhs rhs prog 0 (mk_ms junk (mk_mg lp0 rp0 p0 p1 p2 p3 run start cs t0 t1) res) = Some s' /\
    (forall r c, 0 <= r < 1 * 4 -> 0 <= c < 4 -> ms_dst s' (dst + (r * 1 + c * cs)) =
       Some (wrapS 32 (base r c + sumZ (blkA A B r c) 0 (run / 16)))) /\
    (forall a, (forall r c, 0 <= r < 1 * 4 -> 0 <= c < 4 -> a <> dst + (r * 1 + c * cs)) -> ms_dst s' a = res a).
Proof.
  intros Hj Hrun [q Hq] Hfu.
  eapply (msa_whole lhs rhs prog 16 (run - 16) 44 M4x4_pc M4x4_rel M4x4_loop 27 81); [lia|lia|exists (q - 1); lia| | |].
  - apply M4x4_start; try assumption. now exists q.
  - intros s Hs. replace ((run - 16) / 16) with (q - 1) in Hs by lia.
    eapply M4x4_finish; [exact Hs|lia|lia].
  - replace ((run - 16) / 16) with (q - 1) by lia. replace (run / 16) with q in Hfu by lia. lia.
Qed.
End K4x4.
