(* Arm64Blocks.v: the blocks of the AArch64 kernels for uint8, executed symbolically *)
From Verif Require Import Base BaseLemmas CommonModel PackModel GemmSpec ComputeModel KernelSpec SimdModel X86Model X86Proofs X86Loop
  ArmModel ArmKernels ArmProofs ArmLoop.

#[local] Opaque t_cells t_load t_store t_load8w t_store8w load_cells v_load v_store load8w store8w vec_of
  v_movl v_mlal16 v_mull8 v_mlal8 v_mlalu8 v_padal v_padalu v_addp v_paddD v_paddd v_udot v_set8 v_rot8 v_rot32 v_trn1 v_trn2 v_put v_put2.
Ltac symex := lazy [arun astepT nth_error app fst snd avget avset agset afset amem amset as_v as_g as_f as_dst as_loc nth set_nth
  aget aset aoff_of acond_holds f_eq f_ge a_lhs a_rhs a_dst a_run a_start a_stride a_r0 a_r1
  NEON_64_Kernel12x8Depth2_asm NEON_64_Kernel12x8Depth4_dotprod_asm].
Lemma mk_as_eq v v' g g' f f' d d' l l' : v = v' -> g = g' -> f = f' -> d = d' -> l = l' -> mk_as v g f d l = mk_as v' g' f' d' l'.
Proof. intros -> -> -> -> ->. reflexivity. Qed.
Lemma mk_ag_eq a a' b b' c c' d d' e e' f f' g g' h h' : a = a' -> b = b' -> c = c' -> d = d' -> e = e' -> f = f' -> g = g' -> h = h' ->
  mk_ag a b c d e f g h = mk_ag a' b' c' d' e' f' g' h'.
Proof. intros -> -> -> -> -> -> -> ->. reflexivity. Qed.
(* the stores of a block, in order *)
Ltac stores_of m acc := match m with t_store _ ?m' ?a ?v => stores_of m' constr:((a, v) :: acc) | _ => acc end.
Ltac last_obl l := lazymatch l with ?x :: [] => x | _ :: ?r => last_obl r end.
Ltac stores_eq := repeat (first [reflexivity | apply f_equal2; [apply f_equal2; [lia|reflexivity]|]]).
Ltac obls_stores res qs S1 :=
  match goal with |- all_of ?L => let x := last_obl L in
    match x with v_store 4 ?m ?a ?v <> None =>
      let l := stores_of m constr:([(a, v)]) in
      change (all_of (store_obls 4 res l));
      match type of S1 with all_of (store_obls _ _ ?l') => replace l with l'; [exact S1|] end;
      symmetry; unfold store_list, qs; cbn [map fst snd]; stores_eq end end.
Ltac dst_stores res qs :=
  cbn [as_dst]; match goal with |- ?m = storesT 4 _ ?l' => let l := stores_of m constr:(@nil (Z * reg)) in
    change m with (storesT 4 res l); apply f_equal; unfold store_list, qs; cbn [map fst snd]; stores_eq end.

Definition qs12x8 : list (Z * Z) :=
  [(0, 0); (0, 1); (0, 2); (1, 0); (1, 1); (1, 2); (2, 0); (2, 1); (2, 2); (3, 0); (3, 1); (3, 2);
   (4, 0); (4, 1); (4, 2); (5, 0); (5, 1); (5, 2); (6, 0); (6, 1); (6, 2); (7, 0); (7, 1); (7, 2)].
Lemma qs12x8_ok : NoDup qs12x8 /\ forall c rc, In (c, rc) qs12x8 <-> 0 <= c < 8 /\ 0 <= rc < 3.
Proof.
  unfold qs12x8. split.
  - repeat constructor; cbn [In]; intuition discriminate.
  - intros c rc. cbn [In]. split; [intuition (match goal with H : (_, _) = _ |- _ => injection H as <- <- end; lia)|].
    intros [Hc Hr]. assert (c = 0 \/ c = 1 \/ c = 2 \/ c = 3 \/ c = 4 \/ c = 5 \/ c = 6 \/ c = 7) as C8 by lia.
    assert (rc = 0 \/ rc = 1 \/ rc = 2) as C3 by lia.
    destruct C8 as [-> | [-> | [-> | [-> | [-> | [-> | [-> | ->]]]]]]]; destruct C3 as [-> | [-> | ->]]; tauto.
Qed.
Definition sel3 {T} (a b c : T) (i : Z) : T := match i with 0 => a | 1 => b | _ => c end.

Definition base_of (start : Z) (old : Z -> Z -> Z) (r c : Z) : Z := if start =? 0 then 0 else old r c.

Section K12x8.
Variables (lhs rhs : mem) (lp0 rp0 run dst start cs : Z) (res loc : mem) (A B old : Z -> Z -> Z).
Hypothesis HA : holds_run (mk_side_fmt 4 2 CDepthMajor 3 FUint8) lhs lp0 run A.
Hypothesis HB : holds_run (mk_side_fmt 4 2 CDepthMajor 2 FUint8) rhs rp0 run B.
Hypothesis Hinj : forall r c r' c', 0 <= r < 3 * 4 -> 0 <= c < 8 -> 0 <= r' < 3 * 4 -> 0 <= c' < 8 ->
  r * 1 + c * cs = r' * 1 + c' * cs -> r = r' /\ c = c'.
Hypothesis Hold : forall r c, 0 <= r < 3 * 4 -> 0 <= c < 8 -> res (dst + (r * 1 + c * cs)) = Some (old r c).
Notation prog := NEON_64_Kernel12x8Depth2_asm.
Notation cL := (cellD 4 2 3 FUint8 lhs lp0).
Notation cR := (cellD 4 2 2 FUint8 rhs rp0).
Notation base := (base_of start old).
Definition K12x8_regs (x0 x1 L0 L1 L2 R0 R1 x7 : reg) (a : Z -> Z -> reg) : list reg :=
  [x0; x1; L0; L1; L2; R0; R1; x7; a 0 0; a 0 1; a 0 2; a 0 3; a 0 4; a 0 5; a 0 6; a 0 7;
   a 1 0; a 1 1; a 1 2; a 1 3; a 1 4; a 1 5; a 1 6; a 1 7; a 2 0; a 2 1; a 2 2; a 2 3; a 2 4; a 2 5; a 2 6; a 2 7].
Definition K12x8_rel (dc m : Z) (s : astate) : Prop :=
  exists x0 x1 L0 L1 L2 R0 R1 x7 t0 t1 fl acc,
    s = mk_as (K12x8_regs x0 x1 L0 L1 L2 R0 R1 x7 acc)
          (mk_ag (lp0 + (dc + 1) * 24) (rp0 + (dc + 1) * 16) (4 * dst) m start (cs * 2 ^ 2) t0 t1) fl res loc /\
    isb L0 0 (cL dc 0) /\ isb L1 0 (cL dc 1) /\ isb L2 0 (cL dc 2) /\ isb R0 0 (cR dc 0) /\ isb R1 0 (cR dc 1) /\
    acc_at 3 8 base A B acc (2 * dc).
Definition K12x8_pc (m : Z) : nat := if m =? 0 then 136 else 76.
Definition K12x8_next (L0 L1 L2 R0 R1 : reg) (acc : Z -> Z -> reg) (rc c : Z) : reg :=
  let xL := sel3 L0 L1 L2 rc in let xR := if c <? 4 then R0 else R1 in
  v_mlal16 (v_mlal16 (acc rc c) (v_movl xL 0) 0 (v_movl xR 0) (c mod 4)) (v_movl xL 0) 1 (v_movl xR 0) (4 + c mod 4).
Lemma K12x8_next_ok L0 L1 L2 R0 R1 acc dc : 0 <= dc -> 2 * (dc + 1) <= run ->
  isb L0 0 (cL dc 0) -> isb L1 0 (cL dc 1) -> isb L2 0 (cL dc 2) -> isb R0 0 (cR dc 0) -> isb R1 0 (cR dc 1) ->
  acc_at 3 8 base A B acc (2 * dc) -> acc_at 3 8 base A B (K12x8_next L0 L1 L2 R0 R1 acc) (2 * (dc + 1)).
Proof.
  intros Hd Hr H0 H1 H2 G0 G1 HX. replace (2 * (dc + 1)) with (2 * dc + 2) by lia.
  apply (acc_at_next 3 8 base A B acc); [lia|lia|exact HX|]. intros rc c i Hrc Hc Hi. unfold K12x8_next. cbv zeta.
  rewrite (mac_dm _ _ _ _ _ (cL dc rc) (cR dc (c / 4)) (c mod 4) i).
  - f_equal. f_equal. apply (cellD_mac A B _ _ rc _ (c / 4)); try lia.
    + intros j Hj. rewrite <- (proj2 (proj2 (cellD_ok 4 2 3 FUint8 lhs lp0 run A ltac:(lia) ltac:(lia) HA dc rc j ltac:(lia) ltac:(lia) ltac:(lia) ltac:(lia)))). reflexivity.
    + intros j Hj. rewrite <- (proj2 (proj2 (cellD_ok 4 2 2 FUint8 rhs rp0 run B ltac:(lia) ltac:(lia) HB dc (c / 4) j ltac:(lia) ltac:(lia) ltac:(lia) ltac:(lia)))). reflexivity.
  - assert (rc = 0 \/ rc = 1 \/ rc = 2) as [-> | [-> | ->]] by lia; assumption.
  - destruct (Z.ltb_spec c 4) as [L | G]; [replace (c / 4) with 0 by lia|replace (c / 4) with 1 by lia]; assumption.
  - exact Hi.
  - lia.
  - reflexivity.
  - reflexivity.
Qed.
Lemma K12x8_loop dc m s : K12x8_rel dc m s -> 0 <= dc -> 0 < m -> 2 * (dc + 1) + m = run -> (2 | m) ->
  exists s', asteps 60 lhs rhs prog (K12x8_pc m) s = Some (K12x8_pc (m - 2), s') /\ K12x8_rel (dc + 1) (m - 2) s'.
Proof.
  intros (x0 & x1 & L0 & L1 & L2 & R0 & R1 & x7 & t0 & t1 & fl & acc & -> & H0 & H1 & H2 & G0 & G1 & HX) Hd Hm Hrun [q Hq].
  unfold K12x8_pc at 1. replace (m =? 0) with false by lia.
  eexists. split.
  - etransitivity; [eapply arun_sound; [unfold K12x8_regs; symex; reflexivity|]|].
    + cbn [all_of]. repeat apply conj.
      * eapply (ld8D 2 FUint8 rhs rp0 run B _ (dc + 1) 0 HB); lia.
      * eapply (ld8D 2 FUint8 rhs rp0 run B _ (dc + 1) 1 HB); lia.
      * eapply (ld8D 3 FUint8 lhs lp0 run A _ (dc + 1) 0 HA); lia.
      * eapply (ld8D 3 FUint8 lhs lp0 run A _ (dc + 1) 1 HA); lia.
      * eapply (ld8D 3 FUint8 lhs lp0 run A _ (dc + 1) 2 HA); lia.
      * exact I.
    + apply f_equal. apply f_equal2; [|reflexivity]. unfold K12x8_pc. destruct (m - 2 =? 0); reflexivity.
  - unfold K12x8_rel.
    do 11 eexists. exists (K12x8_next L0 L1 L2 R0 R1 acc). split.
    { apply mk_as_eq; [reflexivity| |reflexivity|reflexivity|reflexivity]. apply mk_ag_eq; try reflexivity; lia. }
    repeat apply conj.
    + eapply (ld8D 3 FUint8 lhs lp0 run A _ (dc + 1) 0 HA); lia.
    + eapply (ld8D 3 FUint8 lhs lp0 run A _ (dc + 1) 1 HA); lia.
    + eapply (ld8D 3 FUint8 lhs lp0 run A _ (dc + 1) 2 HA); lia.
    + eapply (ld8D 2 FUint8 rhs rp0 run B _ (dc + 1) 0 HB); lia.
    + eapply (ld8D 2 FUint8 rhs rp0 run B _ (dc + 1) 1 HB); lia.
    + apply K12x8_next_ok; try assumption; lia.
Qed.
Ltac ld12x8 :=
  match goal with
  | |- load_cells lhs ?a 8 <> None =>
      first [eapply (ld8D 3 FUint8 lhs lp0 run A a 0 0 HA); lia | eapply (ld8D 3 FUint8 lhs lp0 run A a 0 1 HA); lia
            | eapply (ld8D 3 FUint8 lhs lp0 run A a 0 2 HA); lia]
  | |- load_cells rhs ?a 8 <> None =>
      first [eapply (ld8D 2 FUint8 rhs rp0 run B a 0 0 HB); lia | eapply (ld8D 2 FUint8 rhs rp0 run B a 0 1 HB); lia]
  end.
Ltac ldW12x8 rc c := eapply (ldW 3 8 dst cs res old _ rc c); [lia|exact Hold|lia..].
Lemma K12x8_start junk t0 t1 fl : length junk = 32%nat -> 2 <= run -> (2 | run) ->
  exists k s, (k <= 51)%nat /\
    asteps k lhs rhs prog 0 (mk_as junk (mk_ag lp0 rp0 (4 * dst) run start cs t0 t1) fl res loc) = Some (K12x8_pc (run - 2), s) /\
    K12x8_rel 0 (run - 2) s.
Proof.
  intros Hj Hrun Hdiv.
  do 32 (destruct junk as [|? junk]; [discriminate Hj|]). destruct junk; [clear Hj|discriminate Hj].
  destruct (Z.eqb_spec start 0) as [Es | Es].
  - exists (8 + 26)%nat. eexists. split; [lia|]. split.
    + etransitivity; [eapply asteps_app; etransitivity; [eapply arun_sound; [symex; reflexivity|]|]|].
      * cbn [all_of]. repeat apply conj; try exact I; ld12x8.
      * replace (start - 0 =? 0) with true by lia. reflexivity.
      * etransitivity; [eapply arun_sound; [symex; reflexivity|cbn [all_of]; repeat apply conj; exact I]|].
        apply f_equal. apply f_equal2; [|reflexivity]. unfold K12x8_pc. destruct (run - 2 =? 0); reflexivity.
    + unfold K12x8_rel. do 11 eexists. exists (fun _ _ => 0). split.
      { apply mk_as_eq; [reflexivity| |reflexivity|reflexivity|reflexivity]. apply mk_ag_eq; try reflexivity; lia. }
      repeat apply conj.
      1-3: eapply ld8D; [exact HA|lia|lia|lia|lia].
      1-2: eapply ld8D; [exact HB|lia|lia|lia|lia].
      apply acc_at_zero. intros ? ?. unfold base_of. replace (start =? 0) with true by lia. reflexivity.
  - exists (8 + 43)%nat. eexists. split; [lia|]. split.
    + etransitivity; [eapply asteps_app; etransitivity; [eapply arun_sound; [symex; reflexivity|]|]|].
      * cbn [all_of]. repeat apply conj; try exact I; ld12x8.
      * replace (start - 0 =? 0) with false by lia. reflexivity.
      * etransitivity; [eapply arun_sound; [symex; reflexivity|cbn [all_of]; repeat apply conj; try exact I]|].
        all: cycle -1.
        { apply f_equal. apply f_equal2; [|reflexivity]. unfold K12x8_pc. destruct (run - 2 =? 0); reflexivity. }
        all: [> ldW12x8 0 0 | ldW12x8 1 0 | ldW12x8 2 0 | ldW12x8 0 1 | ldW12x8 1 1 | ldW12x8 2 1 | ldW12x8 0 2 | ldW12x8 1 2 | ldW12x8 2 2 | ldW12x8 0 3 | ldW12x8 1 3 | ldW12x8 2 3 | ldW12x8 0 4 | ldW12x8 1 4 | ldW12x8 2 4 | ldW12x8 0 5 | ldW12x8 1 5 | ldW12x8 2 5 | ldW12x8 0 6 | ldW12x8 1 6 | ldW12x8 2 6 | ldW12x8 0 7 | ldW12x8 1 7 | ldW12x8 2 7].
    + match goal with |- context [mk_as (_ :: _ :: _ :: _ :: _ :: _ :: _ :: _ :: ?l) _ _ _ _] =>
        pose (acc := fun rc c : Z => nth (Z.to_nat (8 * rc + c)) l 0) end.
      unfold K12x8_rel. do 11 eexists. exists acc. split.
      { apply mk_as_eq; [reflexivity| |reflexivity|reflexivity|reflexivity]. apply mk_ag_eq; try reflexivity; lia. }
      repeat apply conj.
      1-3: eapply ld8D; [exact HA|lia|lia|lia|lia].
      1-2: eapply ld8D; [exact HB|lia|lia|lia|lia].
      intros rc c i Hrc Hc Hi. rewrite sumZ_empty by lia. unfold base_of. replace (start =? 0) with false by lia. rewrite Z.add_0_r.
      assert (c = 0 \/ c = 1 \/ c = 2 \/ c = 3 \/ c = 4 \/ c = 5 \/ c = 6 \/ c = 7) as C8 by lia.
      assert (rc = 0 \/ rc = 1 \/ rc = 2) as C3 by lia. unfold acc. clear acc.
      destruct C8 as [-> | [-> | [-> | [-> | [-> | [-> | [-> | ->]]]]]]]; destruct C3 as [-> | [-> | ->]];
        (eapply (ldW 3 8 dst cs res old); [lia|exact Hold|lia|lia|lia|exact Hi]).
Qed.
Lemma K12x8_finish dc s : K12x8_rel dc 0 s -> 0 <= dc -> 2 * (dc + 1) = run ->
  exists k s', (k <= 150)%nat /\ asteps k lhs rhs prog (K12x8_pc 0) s = Some (length prog, s') /\
    (forall r c, 0 <= r < 3 * 4 -> 0 <= c < 8 -> as_dst s' (dst + (r * 1 + c * cs)) =
       Some (wrapS 32 (base r c + sumZ (fun d => A r d * B c d) 0 run))) /\
    (forall a, (forall r c, 0 <= r < 3 * 4 -> 0 <= c < 8 -> a <> dst + (r * 1 + c * cs)) -> as_dst s' a = res a).
Proof.
  intros (x0 & x1 & L0 & L1 & L2 & R0 & R1 & x7 & t0 & t1 & fl & acc & -> & H0 & H1 & H2 & G0 & G1 & HX) Hd Hrun.
  assert (HN := K12x8_next_ok L0 L1 L2 R0 R1 acc dc Hd ltac:(lia) H0 H1 H2 G0 G1 HX).
  destruct (stores_finishK 4 3 8 dst cs res old ltac:(lia) ltac:(lia) Hinj Hold qs12x8 qs12x8_ok (K12x8_next L0 L1 L2 R0 R1 acc)) as (S1 & _ & _).
  exists (length prog - 136)%nat. eexists. split; [apply Nat.leb_le; reflexivity|]. split.
  - change (K12x8_pc 0) with 136%nat. let k := eval compute in (length prog - 136)%nat in change (length prog - 136)%nat with k.
    etransitivity; [eapply arun_sound; [unfold K12x8_regs; symex; reflexivity|]|reflexivity].
    obls_stores res qs12x8 S1.
  - apply (stores_value 3 8 dst cs res old qs12x8 (K12x8_next L0 L1 L2 R0 R1 acc)); [lia|exact Hinj|exact Hold|exact qs12x8_ok| |].
    + dst_stores res qs12x8.
    + intros rc c i Hrc Hc Hi. rewrite HN by assumption. rewrite Hrun. reflexivity.
Qed.
Lemma K12x8_ok junk t0 t1 fl fuel : length junk = 32%nat -> 2 <= run -> (2 | run) ->
  (201 + Z.to_nat (run / 2) * 60 <= fuel)%nat ->
  exists s', aexec fuel lhs rhs prog 0 (mk_as junk (mk_ag lp0 rp0 (4 * dst) run start cs t0 t1) fl res loc) = Some s' /\
    (forall r c, 0 <= r < 3 * 4 -> 0 <= c < 8 -> as_dst s' (dst + (r * 1 + c * cs)) =
       Some (wrapS 32 (base r c + sumZ (fun d => A r d * B c d) 0 run))) /\
    (forall a, (forall r c, 0 <= r < 3 * 4 -> 0 <= c < 8 -> a <> dst + (r * 1 + c * cs)) -> as_dst s' a = res a).
Proof.
  intros Hj Hrun Hdiv Hfu.
  eapply (arm_whole lhs rhs prog 2 run 60 K12x8_pc K12x8_rel K12x8_loop 51 150); [lia|lia|exact Hdiv| | |lia].
  - apply K12x8_start; assumption.
  - intros s Hs. destruct Hdiv as [q Hq]. replace (run / 2) with q in Hs by lia.
    eapply K12x8_finish; [exact Hs|lia|lia].
Qed.
End K12x8.
