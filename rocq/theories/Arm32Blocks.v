(* Arm32Blocks.v: the blocks of the AArch32 12x4 kernel, executed symbolically *)
From Verif Require Import Base BaseLemmas CommonModel PackModel GemmSpec ComputeModel KernelSpec SimdModel X86Model X86Proofs X86Loop
  ArmModel ArmKernels ArmProofs ArmLoop Arm64Blocks.

#[local] Opaque t_cells t_load t_store t_load8w t_store8w load_cells v_load v_store load8w store8w vec_of
  v_movl v_mlal16 v_mull8 v_mlal8 v_mlalu8 v_padal v_padalu v_addp v_paddD v_paddd v_udot v_set8 v_rot8 v_rot32 v_trn1 v_trn2 v_put v_put2.
Ltac symex := lazy [arun astepT nth_error app fst snd avget avset agset afset amem amset as_v as_g as_f as_dst as_loc nth set_nth
  aget aset aoff_of acond_holds f_eq f_ge a_lhs a_rhs a_dst a_run a_start a_stride a_r0 a_r1
  NEON_32_Kernel12x4Depth2_asm].
Definition qs12x4 : list (Z * Z) :=
  [(0, 0); (0, 1); (0, 2); (1, 0); (1, 1); (1, 2); (2, 0); (2, 1); (2, 2); (3, 0); (3, 1); (3, 2)].
Lemma qs12x4_ok : NoDup qs12x4 /\ forall c rc, In (c, rc) qs12x4 <-> 0 <= c < 4 /\ 0 <= rc < 3.
Proof.
  unfold qs12x4. split.
  - repeat constructor; cbn [In]; intuition discriminate.
  - intros c rc. cbn [In]. split; [intuition (match goal with H : (_, _) = _ |- _ => injection H as <- <- end; lia)|].
    intros [Hc Hr]. assert (c = 0 \/ c = 1 \/ c = 2 \/ c = 3) as C4 by lia.
    assert (rc = 0 \/ rc = 1 \/ rc = 2) as C3 by lia.
    destruct C4 as [-> | [-> | [-> | ->]]]; destruct C3 as [-> | [-> | ->]]; tauto.
Qed.

Section K12x4.
Variables (lhs rhs : mem) (lp0 rp0 run dst start cs : Z) (res loc : mem) (A B old : Z -> Z -> Z).
Hypothesis HA : holds_run (mk_side_fmt 4 2 CDepthMajor 3 FUint8) lhs lp0 run A.
Hypothesis HB : holds_run (mk_side_fmt 4 2 CDepthMajor 1 FUint8) rhs rp0 run B.
Hypothesis Hinj : forall r c r' c', 0 <= r < 3 * 4 -> 0 <= c < 4 -> 0 <= r' < 3 * 4 -> 0 <= c' < 4 ->
  r * 1 + c * cs = r' * 1 + c' * cs -> r = r' /\ c = c'.
Hypothesis Hold : forall r c, 0 <= r < 3 * 4 -> 0 <= c < 4 -> res (dst + (r * 1 + c * cs)) = Some (old r c).
Notation prog := NEON_32_Kernel12x4Depth2_asm.
Notation base := (base_of start old).
Notation cL := (cellD 4 2 3 FUint8 lhs lp0).
Notation cR := (cellD 4 2 1 FUint8 rhs rp0).
Definition K12x4_regs (R L0 L1 L2 : reg) (a : Z -> Z -> reg) : list reg :=
  [R; L0; L1; L2; a 0 0; a 0 1; a 0 2; a 0 3; a 1 0; a 1 1; a 1 2; a 1 3; a 2 0; a 2 1; a 2 2; a 2 3].
Definition K12x4_rel (dc m : Z) (s : astate) : Prop :=
  exists R L0 L1 L2 t0 t1 fl acc,
    s = mk_as (K12x4_regs R L0 L1 L2 acc)
          (mk_ag (lp0 + (dc + 1) * 24) (rp0 + (dc + 1) * 8) (4 * dst) m start (cs * 2 ^ 2) t0 t1) fl res loc /\
    isb L0 0 (cL dc 0) /\ isb L1 0 (cL dc 1) /\ isb L2 0 (cL dc 2) /\ isb R 0 (cR dc 0) /\
    acc_at 3 4 base A B acc (2 * dc).
Definition K12x4_pc (m : Z) : nat := if m =? 0 then 79 else 43.
Definition hi_same (x y : reg) : Prop := forall i, 0 <= i < 4 -> getU 16 (4 + i) x = getU 16 (4 + i) y.
(* the second levels may be read after the next first levels are loaded *)
Definition K12x4_next (L0 L1 L2 R H0 H1 H2 HR : reg) (acc : Z -> Z -> reg) (rc c : Z) : reg :=
  v_mlal16 (v_mlal16 (acc rc c) (v_movl (sel3 L0 L1 L2 rc) 0) 0 (v_movl R 0) c) (sel3 H0 H1 H2 rc) 1 HR (4 + c).
Lemma K12x4_next_ok L0 L1 L2 R H0 H1 H2 HR acc dc : 0 <= dc -> 2 * (dc + 1) <= run ->
  isb L0 0 (cL dc 0) -> isb L1 0 (cL dc 1) -> isb L2 0 (cL dc 2) -> isb R 0 (cR dc 0) ->
  hi_same H0 (v_movl L0 0) -> hi_same H1 (v_movl L1 0) -> hi_same H2 (v_movl L2 0) -> hi_same HR (v_movl R 0) ->
  acc_at 3 4 base A B acc (2 * dc) -> acc_at 3 4 base A B (K12x4_next L0 L1 L2 R H0 H1 H2 HR acc) (2 * (dc + 1)).
Proof.
  intros Hd Hr E0 E1 E2 G0 S0 S1 S2 SR HX. replace (2 * (dc + 1)) with (2 * dc + 2) by lia.
  apply (acc_at_next 3 4 base A B acc); [lia|lia|exact HX|]. intros rc c i Hrc Hc Hi. unfold K12x4_next.
  rewrite (mac_dm _ _ _ _ _ (cL dc rc) (cR dc 0) c i).
  - f_equal. f_equal. apply (cellD_mac A B _ _ rc _ 0); try lia.
    + intros j Hj. rewrite <- (proj2 (proj2 (cellD_ok 4 2 3 FUint8 lhs lp0 run A ltac:(lia) ltac:(lia) HA dc rc j ltac:(lia) ltac:(lia) ltac:(lia) ltac:(lia)))). reflexivity.
    + intros j Hj. rewrite <- (proj2 (proj2 (cellD_ok 4 2 1 FUint8 rhs rp0 run B ltac:(lia) ltac:(lia) HB dc 0 j ltac:(lia) ltac:(lia) ltac:(lia) ltac:(lia)))). reflexivity.
  - assert (rc = 0 \/ rc = 1 \/ rc = 2) as [-> | [-> | ->]] by lia; assumption.
  - exact G0.
  - exact Hi.
  - exact Hc.
  - assert (rc = 0 \/ rc = 1 \/ rc = 2) as [-> | [-> | ->]] by lia; [now apply S0|now apply S1|now apply S2].
  - now apply SR.
Qed.
Ltac ldL dc rc := eapply (ld8D 3 FUint8 lhs lp0 run A _ dc rc HA); lia.
Ltac ldR dc := eapply (ld8D 1 FUint8 rhs rp0 run B _ dc 0 HB); lia.
Ltac ldW12x4 rc c := eapply (ldW 3 4 dst cs res old _ rc c); [lia|exact Hold|lia..].
Lemma K12x4_loop dc m s : K12x4_rel dc m s -> 0 <= dc -> 0 < m -> 2 * (dc + 1) + m = run -> (2 | m) ->
  exists s', asteps 36 lhs rhs prog (K12x4_pc m) s = Some (K12x4_pc (m - 2), s') /\ K12x4_rel (dc + 1) (m - 2) s'.
Proof.
  intros (R & L0 & L1 & L2 & t0 & t1 & fl & acc & -> & E0 & E1 & E2 & G0 & HX) Hd Hm Hrun [q Hq].
  unfold K12x4_pc at 1. replace (m =? 0) with false by lia.
  eexists. split.
  - etransitivity; [eapply arun_sound; [unfold K12x4_regs; symex; reflexivity|]|].
    + cbn [all_of]. repeat apply conj; [ldL (dc + 1) 0|ldL (dc + 1) 1|ldL (dc + 1) 2|ldR (dc + 1)|exact I].
    + apply f_equal. apply f_equal2; [|reflexivity]. unfold K12x4_pc. destruct (m - 2 =? 0); reflexivity.
  - unfold K12x4_rel.
    match goal with |- context [mk_as (?HR :: ?H0 :: ?H1 :: ?H2 :: _) _ _ _ _] => do 7 eexists; exists (K12x4_next L0 L1 L2 R H0 H1 H2 HR acc) end.
    split.
    { apply mk_as_eq; [reflexivity| |reflexivity|reflexivity|reflexivity]. apply mk_ag_eq; try reflexivity; lia. }
    repeat apply conj; [ldL (dc + 1) 0|ldL (dc + 1) 1|ldL (dc + 1) 2|ldR (dc + 1)|].
    apply K12x4_next_ok; try assumption; try lia; intros ? ?; apply gu16_set8_hi; assumption.
Qed.
Lemma K12x4_start junk t0 t1 fl : length junk = 16%nat -> 2 <= run -> (2 | run) ->
  exists k s, (k <= 51)%nat /\
    asteps k lhs rhs prog 0 (mk_as junk (mk_ag lp0 rp0 (4 * dst) run start cs t0 t1) fl res loc) = Some (K12x4_pc (run - 2), s) /\
    K12x4_rel 0 (run - 2) s.
Proof.
  intros Hj Hrun Hdiv.
  do 16 (destruct junk as [|? junk]; [discriminate Hj|]). destruct junk; [clear Hj|discriminate Hj].
  destruct (Z.eqb_spec start 0) as [Es | Es].
  - exists (7 + 14)%nat. eexists. split; [lia|]. split.
    + etransitivity; [eapply asteps_app; etransitivity; [eapply arun_sound; [symex; reflexivity|]|]|].
      * cbn [all_of]. repeat apply conj; [ldR 0|ldL 0 0|ldL 0 1|ldL 0 2|exact I].
      * replace (start - 0 =? 0) with true by lia. reflexivity.
      * etransitivity; [eapply arun_sound; [symex; reflexivity|cbn [all_of]; repeat apply conj; exact I]|].
        apply f_equal. apply f_equal2; [|reflexivity]. unfold K12x4_pc. destruct (run - 2 =? 0); reflexivity.
    + unfold K12x4_rel. do 7 eexists. exists (fun _ _ => 0). split.
      { apply mk_as_eq; [reflexivity| |reflexivity|reflexivity|reflexivity]. apply mk_ag_eq; try reflexivity; lia. }
      repeat apply conj; [ldL 0 0|ldL 0 1|ldL 0 2|ldR 0|].
      apply acc_at_zero. intros ? ?. unfold base_of. replace (start =? 0) with true by lia. reflexivity.
  - exists (7 + 23)%nat. eexists. split; [lia|]. split.
    + etransitivity; [eapply asteps_app; etransitivity; [eapply arun_sound; [symex; reflexivity|]|]|].
      * cbn [all_of]. repeat apply conj; [ldR 0|ldL 0 0|ldL 0 1|ldL 0 2|exact I].
      * replace (start - 0 =? 0) with false by lia. reflexivity.
      * etransitivity; [eapply arun_sound; [symex; reflexivity|cbn [all_of]; repeat apply conj; try exact I]|].
        all: cycle -1.
        { apply f_equal. apply f_equal2; [|reflexivity]. unfold K12x4_pc. destruct (run - 2 =? 0); reflexivity. }
        all: [> ldW12x4 0 0 | ldW12x4 1 0 | ldW12x4 2 0 | ldW12x4 0 1 | ldW12x4 1 1 | ldW12x4 2 1
              | ldW12x4 0 2 | ldW12x4 1 2 | ldW12x4 2 2 | ldW12x4 0 3 | ldW12x4 1 3 | ldW12x4 2 3].
    + match goal with |- context [mk_as (_ :: _ :: _ :: _ :: ?l) _ _ _ _] =>
        pose (acc := fun rc c : Z => nth (Z.to_nat (4 * rc + c)) l 0) end.
      unfold K12x4_rel. do 7 eexists. exists acc. split.
      { apply mk_as_eq; [reflexivity| |reflexivity|reflexivity|reflexivity]. apply mk_ag_eq; try reflexivity; lia. }
      repeat apply conj; [ldL 0 0|ldL 0 1|ldL 0 2|ldR 0|].
      intros rc c i Hrc Hc Hi. rewrite sumZ_empty by lia. unfold base_of. replace (start =? 0) with false by lia. rewrite Z.add_0_r.
      assert (c = 0 \/ c = 1 \/ c = 2 \/ c = 3) as C4 by lia.
      assert (rc = 0 \/ rc = 1 \/ rc = 2) as C3 by lia. unfold acc. clear acc.
      destruct C4 as [-> | [-> | [-> | ->]]]; destruct C3 as [-> | [-> | ->]];
        (eapply (ldW 3 4 dst cs res old); [lia|exact Hold|lia|lia|lia|exact Hi]).
Qed.
Lemma K12x4_finish dc s : K12x4_rel dc 0 s -> 0 <= dc -> 2 * (dc + 1) = run ->
  exists k s', (k <= 150)%nat /\ asteps k lhs rhs prog (K12x4_pc 0) s = Some (length prog, s') /\
    (forall r c, 0 <= r < 3 * 4 -> 0 <= c < 4 -> as_dst s' (dst + (r * 1 + c * cs)) =
       Some (wrapS 32 (base r c + sumZ (fun d => A r d * B c d) 0 run))) /\
    (forall a, (forall r c, 0 <= r < 3 * 4 -> 0 <= c < 4 -> a <> dst + (r * 1 + c * cs)) -> as_dst s' a = res a).
Proof.
  intros (R & L0 & L1 & L2 & t0 & t1 & fl & acc & -> & E0 & E1 & E2 & G0 & HX) Hd Hrun.
  assert (HN := K12x4_next_ok L0 L1 L2 R _ _ _ _ acc dc Hd ltac:(lia) E0 E1 E2 G0 (fun _ _ => eq_refl) (fun _ _ => eq_refl) (fun _ _ => eq_refl) (fun _ _ => eq_refl) HX).
  match type of HN with acc_at _ _ _ _ _ ?F _ => set (N := F) in * end.
  destruct (stores_finishK 4 3 4 dst cs res old ltac:(lia) ltac:(lia) Hinj Hold qs12x4 qs12x4_ok N) as (S1 & _ & _).
  exists (length prog - 79)%nat. eexists. split; [apply Nat.leb_le; reflexivity|]. split.
  - change (K12x4_pc 0) with 79%nat. let k := eval compute in (length prog - 79)%nat in change (length prog - 79)%nat with k.
    etransitivity; [eapply arun_sound; [unfold K12x4_regs; symex; reflexivity|]|reflexivity].
    obls_stores res qs12x4 S1.
  - apply (stores_value 3 4 dst cs res old qs12x4 N); [lia|exact Hinj|exact Hold|exact qs12x4_ok| |].
    + dst_stores res qs12x4.
    + intros rc c i Hrc Hc Hi. rewrite HN by assumption. rewrite Hrun. reflexivity.
Qed.
Lemma K12x4_ok junk t0 t1 fl fuel : length junk = 16%nat -> 2 <= run -> (2 | run) ->
  (201 + Z.to_nat (run / 2) * 36 <= fuel)%nat ->
  exists s', aexec fuel lhs rhs prog 0 (mk_as junk (mk_ag lp0 rp0 (4 * dst) run start cs t0 t1) fl res loc) = Some s' /\
    (forall r c, 0 <= r < 3 * 4 -> 0 <= c < 4 -> as_dst s' (dst + (r * 1 + c * cs)) =
       Some (wrapS 32 (base r c + sumZ (fun d => A r d * B c d) 0 run))) /\
    (forall a, (forall r c, 0 <= r < 3 * 4 -> 0 <= c < 4 -> a <> dst + (r * 1 + c * cs)) -> as_dst s' a = res a).
Proof.
  intros Hj Hrun Hdiv Hfu.
  eapply (arm_whole lhs rhs prog 2 run 36 K12x4_pc K12x4_rel K12x4_loop 51 150); [lia|lia|exact Hdiv| | |lia].
  - apply K12x4_start; assumption.
  - intros s Hs. destruct Hdiv as [q Hq]. replace (run / 2) with q in Hs by lia.
    eapply K12x4_finish; [exact Hs|lia|lia].
Qed.
End K12x4.
