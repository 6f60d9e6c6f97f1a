(* Arm64Dot.v: the blocks of the AArch64 dot product kernel, executed symbolically *)
From Verif Require Import Base BaseLemmas CommonModel PackModel GemmSpec ComputeModel KernelSpec SimdModel X86Model X86Proofs X86Loop
  ArmModel ArmKernels ArmProofs ArmLoop Arm64Blocks.

#[local] Opaque t_cells t_load t_store t_load8w t_store8w load_cells v_load v_store load8w store8w vec_of
  v_movl v_mlal16 v_mull8 v_mlal8 v_mlalu8 v_padal v_padalu v_addp v_paddD v_paddd v_udot v_set8 v_rot8 v_rot32 v_trn1 v_trn2 v_put v_put2.

(* ------------------------------------------------------------------ *)
Section Kdot.
Variables (lhs rhs : mem) (lp0 rp0 run dst start cs : Z) (res loc : mem) (A B old : Z -> Z -> Z).
Hypothesis HA : holds_run (mk_side_fmt 4 4 CWidthMajor 3 FUint8) lhs lp0 run A.
Hypothesis HB : holds_run (mk_side_fmt 4 4 CWidthMajor 2 FUint8) rhs rp0 run B.
Hypothesis Hinj : forall r c r' c', 0 <= r < 3 * 4 -> 0 <= c < 8 -> 0 <= r' < 3 * 4 -> 0 <= c' < 8 ->
  r * 1 + c * cs = r' * 1 + c' * cs -> r = r' /\ c = c'.
Hypothesis Hold : forall r c, 0 <= r < 3 * 4 -> 0 <= c < 8 -> res (dst + (r * 1 + c * cs)) = Some (old r c).
Notation prog := NEON_64_Kernel12x8Depth4_dotprod_asm.
Notation base := (base_of start old).
Notation cL := (fun dc rc j => cellW 4 4 3 FUint8 lhs lp0 dc rc (0 + j)).
Notation cR := (fun dc rc j => cellW 4 4 2 FUint8 rhs rp0 dc rc (0 + j)).
Definition Kdot_regs (R0 x1 L0 x3 x4 x5 x6 x7 : reg) (a : Z -> Z -> reg) : list reg :=
  [R0; x1; L0; x3; x4; x5; x6; x7; a 0 0; a 0 1; a 0 2; a 0 3; a 0 4; a 0 5; a 0 6; a 0 7;
   a 1 0; a 1 1; a 1 2; a 1 3; a 1 4; a 1 5; a 1 6; a 1 7; a 2 0; a 2 1; a 2 2; a 2 3; a 2 4; a 2 5; a 2 6; a 2 7].
Definition Kdot_rel (dc m : Z) (s : astate) : Prop :=
  exists R0 x1 L0 x3 x4 x5 x6 x7 t0 t1 fl acc,
    s = mk_as (Kdot_regs R0 x1 L0 x3 x4 x5 x6 x7 acc)
          (mk_ag (lp0 + dc * 48 + 16) (rp0 + dc * 32 + 16) (4 * dst) m start (cs * 2 ^ 2) t0 t1) fl res loc /\
    is16 R0 (cR dc 0) /\ is16 L0 (cL dc 0) /\ acc_at 3 8 base A B acc (4 * dc).
Definition Kdot_pc (m : Z) : nat := if m =? 0 then 103 else 72.
Definition Kdot_next (L0 L1 L2 R0 R1 : reg) (acc : Z -> Z -> reg) (rc c : Z) : reg :=
  v_udot (acc rc c) (sel3 L0 L1 L2 rc) (if c <? 4 then R0 else R1) (c mod 4).
Lemma Kdot_next_ok L0 L1 L2 R0 R1 acc dc : 0 <= dc -> 4 * (dc + 1) <= run ->
  is16 L0 (cL dc 0) -> is16 L1 (cL dc 1) -> is16 L2 (cL dc 2) -> is16 R0 (cR dc 0) -> is16 R1 (cR dc 1) ->
  acc_at 3 8 base A B acc (4 * dc) -> acc_at 3 8 base A B (Kdot_next L0 L1 L2 R0 R1 acc) (4 * (dc + 1)).
Proof.
  intros Hd Hr H0 H1 H2 G0 G1 HX. replace (4 * (dc + 1)) with (4 * dc + 4) by lia.
  apply (acc_at_next 3 8 base A B acc); [lia|lia|exact HX|]. intros rc c i Hrc Hc Hi. unfold Kdot_next.
  assert (EL : is16 (sel3 L0 L1 L2 rc) (cL dc rc)).
  { assert (rc = 0 \/ rc = 1 \/ rc = 2) as [-> | [-> | ->]] by lia; assumption. }
  assert (ER : is16 (if c <? 4 then R0 else R1) (cR dc (c / 4))).
  { destruct (Z.ltb_spec c 4) as [L | G]; [replace (c / 4) with 0 by lia|replace (c / 4) with 1 by lia]; assumption. }
  assert (VL : forall w e, 0 <= w < 4 -> 0 <= e < 4 -> getU 8 (4 * w + e) (sel3 L0 L1 L2 rc) = A (4 * rc + w) (4 * dc + e)).
  { intros w e Hw He. rewrite EL by lia. cbv beta. rewrite Z.add_0_l.
    pose proof (proj2 (proj2 (cellW_ok 4 4 3 FUint8 lhs lp0 run A ltac:(lia) ltac:(lia) HA dc rc (4 * w + e) ltac:(lia) ltac:(lia) ltac:(lia) ltac:(lia)))) as E.
    cbn [operand_value kind_signed] in E. rewrite E. f_equal; lia. }
  assert (VR : forall w e, 0 <= w < 4 -> 0 <= e < 4 -> getU 8 (4 * w + e) (if c <? 4 then R0 else R1) = B (4 * (c / 4) + w) (4 * dc + e)).
  { intros w e Hw He. rewrite ER by lia. cbv beta. rewrite Z.add_0_l.
    pose proof (proj2 (proj2 (cellW_ok 4 4 2 FUint8 rhs rp0 run B ltac:(lia) ltac:(lia) HB dc (c / 4) (4 * w + e) ltac:(lia) ltac:(lia) ltac:(lia) ltac:(lia)))) as E.
    cbn [operand_value kind_signed] in E. rewrite E. f_equal; lia. }
  rewrite g_udot by lia. rewrite !VL, !VR by lia.
  pose proof (VL i 0 ltac:(lia) ltac:(lia)) as L0'. pose proof (VR (c mod 4) 0 ltac:(lia) ltac:(lia)) as R0'.
  rewrite Z.add_0_r in L0', R0'. rewrite L0', R0'. rewrite sumZ_4. replace (4 * (c / 4) + c mod 4) with c by lia. rewrite !Z.add_0_r. reflexivity.
Qed.
Ltac ldL dc rc := eapply (ld16W 4 4 3 FUint8 lhs lp0 run A _ dc rc 0 ltac:(lia) ltac:(lia) HA); lia.
Ltac ldR dc rc := eapply (ld16W 4 4 2 FUint8 rhs rp0 run B _ dc rc 0 ltac:(lia) ltac:(lia) HB); lia.
Lemma Kdot_loop dc m s : Kdot_rel dc m s -> 0 <= dc -> 0 < m -> 4 * (dc + 1) + m = run -> (4 | m) ->
  exists s', asteps 31 lhs rhs prog (Kdot_pc m) s = Some (Kdot_pc (m - 4), s') /\ Kdot_rel (dc + 1) (m - 4) s'.
Proof.
  intros (R0 & x1 & L0 & x3 & x4 & x5 & x6 & x7 & t0 & t1 & fl & acc & -> & G0 & H0 & HX) Hd Hm Hrun [q Hq].
  unfold Kdot_pc at 1. replace (m =? 0) with false by lia.
  eexists. split.
  - etransitivity; [eapply arun_sound; [unfold Kdot_regs; symex; reflexivity|]|].
    + cbn [all_of]. repeat apply conj; [ldR dc 1|ldL dc 1|ldL dc 2|ldL (dc + 1) 0|ldR (dc + 1) 0|exact I].
    + apply f_equal. apply f_equal2; [|reflexivity]. unfold Kdot_pc. destruct (m - 4 =? 0); reflexivity.
  - unfold Kdot_rel.
    match goal with |- context [v_udot (v_udot _ _ _ _)] => fail 1 | |- context [v_udot (acc 0 4) _ ?R1 0] =>
      match goal with |- context [v_udot (acc 1 4) ?L1 _ 0] => match goal with |- context [v_udot (acc 2 4) ?L2 _ 0] =>
        do 11 eexists; exists (Kdot_next L0 L1 L2 R0 R1 acc) end end end. split.
    { apply mk_as_eq; [reflexivity| |reflexivity|reflexivity|reflexivity]. apply mk_ag_eq; try reflexivity; lia. }
    repeat apply conj; [ldR (dc + 1) 0|ldL (dc + 1) 0|].
    apply Kdot_next_ok; [lia|lia|exact H0|ldL dc 1|ldL dc 2|exact G0|ldR dc 1|exact HX].
Qed.
Ltac ldW12x8 rc c := eapply (ldW 3 8 dst cs res old _ rc c); [lia|exact Hold|lia..].
Lemma Kdot_start junk t0 t1 fl : length junk = 32%nat -> 4 <= run -> (4 | run) ->
  exists k s, (k <= 51)%nat /\
    asteps k lhs rhs prog 0 (mk_as junk (mk_ag lp0 rp0 (4 * dst) run start cs t0 t1) fl res loc) = Some (Kdot_pc (run - 4), s) /\
    Kdot_rel 0 (run - 4) s.
Proof.
  intros Hj Hrun Hdiv.
  do 32 (destruct junk as [|? junk]; [discriminate Hj|]). destruct junk; [clear Hj|discriminate Hj].
  destruct (Z.eqb_spec start 0) as [Es | Es].
  - exists (3 + 28)%nat. eexists. split; [lia|]. split.
    + etransitivity; [eapply asteps_app; etransitivity; [eapply arun_sound; [symex; reflexivity|]|]|].
      * exact I.
      * replace (start - 0 =? 0) with true by lia. reflexivity.
      * etransitivity; [eapply arun_sound; [symex; reflexivity|cbn [all_of]; repeat apply conj; [ldR 0 0|ldL 0 0|exact I]]|].
        apply f_equal. apply f_equal2; [|reflexivity]. unfold Kdot_pc. destruct (run - 4 =? 0); reflexivity.
    + unfold Kdot_rel. do 11 eexists. exists (fun _ _ => 0). split.
      { apply mk_as_eq; [reflexivity| |reflexivity|reflexivity|reflexivity]. apply mk_ag_eq; try reflexivity; lia. }
      repeat apply conj; [ldR 0 0|ldL 0 0|].
      apply acc_at_zero. intros ? ?. unfold base_of. replace (start =? 0) with true by lia. reflexivity.
  - exists (3 + 45)%nat. eexists. split; [lia|]. split.
    + etransitivity; [eapply asteps_app; etransitivity; [eapply arun_sound; [symex; reflexivity|]|]|].
      * exact I.
      * replace (start - 0 =? 0) with false by lia. reflexivity.
      * etransitivity; [eapply arun_sound; [symex; reflexivity|cbn [all_of]; repeat apply conj; try exact I]|].
        all: cycle -1.
        { apply f_equal. apply f_equal2; [|reflexivity]. unfold Kdot_pc. destruct (run - 4 =? 0); reflexivity. }
        all: [> ldW12x8 0 0 | ldW12x8 1 0 | ldW12x8 2 0 | ldW12x8 0 1 | ldW12x8 1 1 | ldW12x8 2 1 | ldW12x8 0 2 | ldW12x8 1 2 | ldW12x8 2 2 | ldW12x8 0 3 | ldW12x8 1 3 | ldW12x8 2 3 | ldW12x8 0 4 | ldW12x8 1 4 | ldW12x8 2 4 | ldW12x8 0 5 | ldW12x8 1 5 | ldW12x8 2 5 | ldW12x8 0 6 | ldW12x8 1 6 | ldW12x8 2 6 | ldW12x8 0 7 | ldW12x8 1 7 | ldW12x8 2 7 | ldR 0 0 | ldL 0 0].
    + match goal with |- context [mk_as (_ :: _ :: _ :: _ :: _ :: _ :: _ :: _ :: ?l) _ _ _ _] =>
        pose (acc := fun rc c : Z => nth (Z.to_nat (8 * rc + c)) l 0) end.
      unfold Kdot_rel. do 11 eexists. exists acc. split.
      { apply mk_as_eq; [reflexivity| |reflexivity|reflexivity|reflexivity]. apply mk_ag_eq; try reflexivity; lia. }
      repeat apply conj; [ldR 0 0|ldL 0 0|].
      intros rc c i Hrc Hc Hi. rewrite sumZ_empty by lia. unfold base_of. replace (start =? 0) with false by lia. rewrite Z.add_0_r.
      assert (c = 0 \/ c = 1 \/ c = 2 \/ c = 3 \/ c = 4 \/ c = 5 \/ c = 6 \/ c = 7) as C8 by lia.
      assert (rc = 0 \/ rc = 1 \/ rc = 2) as C3 by lia. unfold acc. clear acc.
      destruct C8 as [-> | [-> | [-> | [-> | [-> | [-> | [-> | ->]]]]]]]; destruct C3 as [-> | [-> | ->]];
        (eapply (ldW 3 8 dst cs res old); [lia|exact Hold|lia|lia|lia|exact Hi]).
Qed.
Lemma Kdot_finish dc s : Kdot_rel dc 0 s -> 0 <= dc -> 4 * (dc + 1) = run ->
  exists k s', (k <= 150)%nat /\ asteps k lhs rhs prog (Kdot_pc 0) s = Some (length prog, s') /\
    (forall r c, 0 <= r < 3 * 4 -> 0 <= c < 8 -> as_dst s' (dst + (r * 1 + c * cs)) =
       Some (wrapS 32 (base r c + sumZ (fun d => A r d * B c d) 0 run))) /\
    (forall a, (forall r c, 0 <= r < 3 * 4 -> 0 <= c < 8 -> a <> dst + (r * 1 + c * cs)) -> as_dst s' a = res a).
Proof.
  intros (R0 & x1 & L0 & x3 & x4 & x5 & x6 & x7 & t0 & t1 & fl & acc & -> & G0 & H0 & HX) Hd Hrun.
  assert (E1 : is16 (vec_of 16 8 (t_cells rhs (rp0 + dc * 32 + 16) 16)) (cR dc 1)) by ldR dc 1.
  assert (E2 : is16 (vec_of 16 8 (t_cells lhs (lp0 + dc * 48 + 16) 16)) (cL dc 1)) by ldL dc 1.
  assert (E3 : is16 (vec_of 16 8 (t_cells lhs (lp0 + dc * 48 + 16 + 16) 16)) (cL dc 2)) by ldL dc 2.
  assert (HN := Kdot_next_ok _ _ _ _ _ acc dc Hd ltac:(lia) H0 E2 E3 G0 E1 HX).
  match type of HN with acc_at _ _ _ _ _ ?F _ => set (N := F) in * end.
  destruct (stores_finishK 4 3 8 dst cs res old ltac:(lia) ltac:(lia) Hinj Hold qs12x8 qs12x8_ok N) as (S1 & _ & _).
  exists (9 + (length prog - 112))%nat. eexists. split; [apply Nat.leb_le; reflexivity|]. split.
  - change (Kdot_pc 0) with 103%nat.
    let k := eval compute in (length prog - 112)%nat in change (length prog - 112)%nat with k.
    etransitivity; [eapply asteps_app; eapply arun_sound; [unfold Kdot_regs; symex; reflexivity|]|].
    + cbn [all_of]. repeat apply conj; [ldR dc 1|ldL dc 1|ldL dc 2|exact I].
    + etransitivity; [eapply arun_sound; [symex; reflexivity|]|reflexivity].
      obls_stores res qs12x8 S1.
  - apply (stores_value 3 8 dst cs res old qs12x8 N); [lia|exact Hinj|exact Hold|exact qs12x8_ok| |].
    + dst_stores res qs12x8.
    + intros rc c i Hrc Hc Hi. rewrite HN by assumption. rewrite Hrun. reflexivity.
Qed.
Lemma Kdot_ok junk t0 t1 fl fuel : length junk = 32%nat -> 4 <= run -> (4 | run) ->
  (201 + Z.to_nat (run / 4) * 31 <= fuel)%nat ->
  exists s', aexec fuel lhs rhs prog 0 (mk_as junk (mk_ag lp0 rp0 (4 * dst) run start cs t0 t1) fl res loc) = Some s' /\
    (forall r c, 0 <= r < 3 * 4 -> 0 <= c < 8 -> as_dst s' (dst + (r * 1 + c * cs)) =
       Some (wrapS 32 (base r c + sumZ (fun d => A r d * B c d) 0 run))) /\
    (forall a, (forall r c, 0 <= r < 3 * 4 -> 0 <= c < 8 -> a <> dst + (r * 1 + c * cs)) -> as_dst s' a = res a).
Proof.
  intros Hj Hrun Hdiv Hfu.
  eapply (arm_whole lhs rhs prog 4 run 31 Kdot_pc Kdot_rel Kdot_loop 51 150); [lia|lia|exact Hdiv| | |lia].
  - apply Kdot_start; assumption.
  - intros s Hs. destruct Hdiv as [q Hq]. replace (run / 4) with q in Hs by lia.
    eapply Kdot_finish; [exact Hs|lia|lia].
Qed.
End Kdot.
