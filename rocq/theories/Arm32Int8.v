(* Arm32Int8.v: the blocks of the AArch32 int8 kernel, executed symbolically *)
From Verif Require Import Base BaseLemmas CommonModel PackModel GemmSpec ComputeModel KernelSpec SimdModel X86Model X86Proofs X86Loop
  ArmModel ArmKernels ArmProofs ArmLoop Arm64Blocks ArmInt8.

#[local] Opaque t_cells t_load t_store t_load8w t_store8w load_cells v_load v_store load8w store8w vec_of
  v_movl v_mlal16 v_mull8 v_mlal8 v_mlalu8 v_padal v_padalu v_addp v_paddD v_paddd v_udot v_set8 v_rot8 v_rot32 v_trn1 v_trn2 v_put v_put2.
Ltac symex := lazy [arun astepT nth_error app fst snd avget avset agset afset amem amset as_v as_g as_f as_dst as_loc nth set_nth
  aget aset aoff_of acond_holds f_eq f_ge a_lhs a_rhs a_dst a_run a_start a_stride a_r0 a_r1
  NEON_32bit_GEMM_Int8Operands_LhsNonzero_asm].
Definition qs4x2 : list (Z * Z) := [(0, 0); (1, 0)].
Lemma qs4x2_ok : NoDup qs4x2 /\ forall c rc, In (c, rc) qs4x2 <-> 0 <= c < 2 /\ 0 <= rc < 1.
Proof.
  unfold qs4x2. split.
  - repeat constructor; cbn [In]; intuition discriminate.
  - intros c rc. cbn [In]. split; [intuition (match goal with H : (_, _) = _ |- _ => injection H as <- <- end; lia)|].
    intros [Hc Hr]. assert (rc = 0) as -> by lia. assert (c = 0 \/ c = 1) as [-> | ->] by lia; tauto.
Qed.
(* pairwise additions of two registers into one, and of the four results *)
Definition padd2 (x a b : reg) : reg := v_paddD (v_paddD x 0 a 0 a 1) 1 b 0 b 1.
Lemma padd2_ok x a b j : 0 <= j < 4 -> get 32 j (padd2 x a b) =
  wrapS 32 (match j with 0 => get 32 0 a + get 32 1 a | 1 => get 32 2 a + get 32 3 a | 2 => get 32 0 b + get 32 1 b | _ => get 32 2 b + get 32 3 b end).
Proof.
  intros Hj. unfold padd2. rewrite g_paddD by lia.
  assert (j = 0 \/ j = 1 \/ j = 2 \/ j = 3) as [-> | [-> | [-> | ->]]] by lia; cbn [Z.mul Z.add Z.eqb Pos.eqb Pos.mul Pos.add Pos.succ]; try reflexivity;
    rewrite g_paddD by lia; cbn [Z.mul Z.add Z.eqb Pos.eqb Pos.mul Pos.add Pos.succ]; apply wrapS_idem; lia.
Qed.
Lemma padd8_ok x x0 x1 x2 x3 a0 b0 a1 b1 a2 b2 a3 b3 h i v : 0 <= i < 4 -> h = 0 \/ h = 1 ->
  v = (match i with 0 => if h =? 0 then a0 else b0 | 1 => if h =? 0 then a1 else b1 | 2 => if h =? 0 then a2 else b2 | _ => if h =? 0 then a3 else b3 end) ->
  get 32 i (v_paddD (v_paddD x 0 (padd2 x0 a0 b0) h (padd2 x1 a1 b1) h) 1 (padd2 x2 a2 b2) h (padd2 x3 a3 b3) h) = wrapS 32 (hs v).
Proof.
  intros Hi Hh ->. rewrite g_paddD by lia. unfold hs.
  assert (i = 0 \/ i = 1 \/ i = 2 \/ i = 3) as [-> | [-> | [-> | ->]]] by lia; destruct Hh as [-> | ->];
    cbn [Z.mul Z.add Z.eqb Pos.eqb Pos.mul Pos.add Pos.succ]; rewrite ?g_paddD by lia;
    cbn [Z.mul Z.add Z.eqb Pos.eqb Pos.mul Pos.add Pos.succ]; rewrite ?wrapS_idem by lia;
    rewrite !padd2_ok by lia; cbv iota; rewrite wrapS_add_l, wrapS_add_r by lia; f_equal; lia.
Qed.

Section K4x2.
Variables (lhs rhs : mem) (lp0 rp0 run dst start cs : Z) (res loc : mem) (A B old : Z -> Z -> Z).
Hypothesis HA : holds_run (mk_side_fmt 4 16 CWidthMajor 1 FInt8) lhs lp0 run A.
Hypothesis HB : holds_run (mk_side_fmt 2 16 CWidthMajor 1 FInt8) rhs rp0 run B.
Hypothesis Hinj : forall r c r' c', 0 <= r < 1 * 4 -> 0 <= c < 2 -> 0 <= r' < 1 * 4 -> 0 <= c' < 2 ->
  r * 1 + c * cs = r' * 1 + c' * cs -> r = r' /\ c = c'.
Hypothesis Hold : forall r c, 0 <= r < 1 * 4 -> 0 <= c < 2 -> res (dst + (r * 1 + c * cs)) = Some (old r c).
Notation prog := NEON_32bit_GEMM_Int8Operands_LhsNonzero_asm.
Notation base := (base_of start old).
Notation cL := (rowc 4 lhs lp0).
Notation cR := (rowc 2 rhs rp0).
Definition hold2 (x : reg) (f : Z -> Z) : Prop := isb x 0 f /\ isb x 1 (fun j => f (8 + j)).
Definition K4x2_regs (R0 R1 L0 L1 x4 x5 x6 x7 : reg) (a : Z -> Z -> reg) : list reg :=
  [R0; R1; L0; L1; x4; x5; x6; x7; a 0 0; a 0 1; a 1 0; a 1 1; a 2 0; a 2 1; a 3 0; a 3 1].
Definition K4x2_acc (acc : Z -> Z -> reg) (n : Z) : Prop := forall r c, 0 <= r < 4 -> 0 <= c < 2 -> lanes_at A B r c (acc r c) n.
Definition K4x2_rel (dc m : Z) (s : astate) : Prop :=
  exists R0 R1 L0 L1 x4 x5 x6 x7 t0 t1 fl acc,
    s = mk_as (K4x2_regs R0 R1 L0 L1 x4 x5 x6 x7 acc)
          (mk_ag (lp0 + dc * 64) (rp0 + dc * 32) (4 * dst) (m + 16) start (cs * 2 ^ 2) t0 t1) fl res loc /\
    hold2 R0 (cR dc 0) /\ hold2 R1 (cR dc 1) /\ hold2 L0 (cL dc 0) /\ hold2 L1 (cL dc 1) /\ K4x2_acc acc dc.
Definition K4x2_pc (m : Z) : nat := 17.
Lemma hold2_set x a p run' cw b A' dc r : holds_run (mk_side_fmt cw 16 CWidthMajor 1 FInt8) b p run' A' -> 0 <= r < cw -> 0 <= dc ->
  16 * (dc + 1) <= run' -> a = p + dc * (16 * cw) + 16 * r -> forall a', a' = a + 8 ->
  hold2 (v_set8 false (v_set8 false x 0 (t_cells b a 8)) 1 (t_cells b a' 8)) (rowc cw b p dc r).
Proof.
  intros H Hr Hd Hrun -> a' ->. split.
  - apply isb_set8_other; [lia|lia|].
    destruct (ldrow8 cw b p run' A' (p + dc * (16 * cw) + 16 * r) dc r 0 H ltac:(lia) Hr Hd Hrun ltac:(lia)) as [_ G].
    exact (G false x).
  - destruct (ldrow8 cw b p run' A' (p + dc * (16 * cw) + 16 * r + 8) dc r 1 H ltac:(lia) Hr Hd Hrun ltac:(lia)) as [_ G]. exact (G false _).
Qed.
Lemma hold2_hi x f l : hold2 x f -> isb (v_set8 false x 0 l) 1 (fun j => f (8 + j)).
Proof. intros [_ H]. apply isb_set8_other; [lia|lia|exact H]. Qed.
(* one row of one block: the high halves may be read after the next low halves are loaded *)
Lemma K4x2_mac x b l b' l' r c dc : 0 <= dc -> 16 * (dc + 1) <= run -> 0 <= r < 4 -> 0 <= c < 2 ->
  isb b 0 (cR dc c) -> isb l 0 (cL dc r) -> isb b' 1 (fun j => cR dc c (8 + j)) -> isb l' 1 (fun j => cL dc r (8 + j)) ->
  lanes_at A B r c x dc -> lanes_at A B r c (v_padal x (v_mlal8 (v_mull8 b 0 l 0) b' 1 l' 1)) (dc + 1).
Proof.
  intros Hd Hr Hr' Hc E1 E2 E3 E4 HX. apply (lanes_next A B r c _ _ _ _ _ (cL dc r) (cR dc c)); try assumption.
  - intros j Hj. apply (rowc_ok 4 lhs lp0 run A); [lia|exact HA|lia..].
  - intros j Hj. apply (rowc_ok 2 rhs rp0 run B); [lia|exact HB|lia..].
Qed.
#[local] Opaque isb rowc.
Ltac ldL dc r h := eapply (ldrow8 4 lhs lp0 run A _ dc r h HA); lia.
Ltac ldR dc r h := eapply (ldrow8 2 rhs rp0 run B _ dc r h HB); lia.
Ltac holdL dc r := eapply (hold2_set _ _ lp0 run 4 lhs A dc r HA); lia.
Ltac holdR dc r := eapply (hold2_set _ _ rp0 run 2 rhs B dc r HB); lia.
Lemma K4x2_loop dc m s : K4x2_rel dc m s -> 0 <= dc -> 0 < m -> 16 * (dc + 1) + m = run -> (16 | m) ->
  exists s', asteps (20 + 21) lhs rhs prog (K4x2_pc m) s = Some (K4x2_pc (m - 16), s') /\ K4x2_rel (dc + 1) (m - 16) s'.
Proof.
  intros (R0 & R1 & L0 & L1 & x4 & x5 & x6 & x7 & t0 & t1 & fl & acc & -> & G0 & G1 & H0 & H1 & HX) Hd Hm Hrun [q Hq].
  change (K4x2_pc m) with 17%nat.
  eexists. split.
  - etransitivity; [eapply asteps_app; etransitivity; [eapply arun_sound; [unfold K4x2_regs; symex; reflexivity|]|]|].
    + cbn [all_of]. repeat apply conj; [ldL dc 2 0|ldL dc 3 0|ldL dc 2 1|ldL dc 3 1|exact I].
    + replace (m + 16 - 16 =? 0) with false by lia. reflexivity.
    + etransitivity; [eapply arun_sound; [symex; reflexivity|]|reflexivity].
      cbn [all_of]. repeat apply conj; [ldL (dc + 1) 0 0|ldR (dc + 1) 0 0|ldR (dc + 1) 1 0|ldL (dc + 1) 1 0|ldL (dc + 1) 0 1|ldR (dc + 1) 0 1|ldR (dc + 1) 1 1|ldL (dc + 1) 1 1|exact I].
  - match goal with |- context [mk_as (_ :: _ :: _ :: _ :: _ :: _ :: _ :: _ :: ?l) _ _ _ _] =>
      pose (acc' := fun r c : Z => nth (Z.to_nat (2 * r + c)) l 0) end.
    assert (HN : K4x2_acc acc' (dc + 1)).
    { assert (H2 : forall x a a', a = lp0 + dc * 64 + 32 -> a' = a + 8 ->
        hold2 (v_set8 false (v_set8 false x 0 (t_cells lhs a 8)) 1 (t_cells lhs a' 8)) (cL dc 2)) by (intros x a a' ? ?; holdL dc 2).
      assert (H3 : forall x a a', a = lp0 + dc * 64 + 48 -> a' = a + 8 ->
        hold2 (v_set8 false (v_set8 false x 0 (t_cells lhs a 8)) 1 (t_cells lhs a' 8)) (cL dc 3)) by (intros x a a' ? ?; holdL dc 3).
      intros r c Hr Hc. unfold acc'. clear acc'.
      assert (r = 0 \/ r = 1 \/ r = 2 \/ r = 3) as R4 by lia. assert (c = 0 \/ c = 1) as C2 by lia.
      destruct R4 as [-> | [-> | [-> | ->]]]; destruct C2 as [-> | ->]; cbn [Z.mul Z.add Pos.mul Pos.add Pos.succ Z.to_nat Pos.to_nat Pos.iter_op Nat.add nth];
        (apply K4x2_mac; [lia|lia|lia|lia| | | | |apply HX; lia]).
      1-4: [> exact (proj1 G0) | exact (proj1 H0) | exact (proj2 G0) | exact (hold2_hi _ _ _ H0) ].
      1-4: [> exact (proj1 G1) | exact (proj1 H0) | exact (proj2 G1) | exact (hold2_hi _ _ _ H0) ].
      1-4: [> exact (proj1 G0) | exact (proj1 H1) | exact (proj2 G0) | exact (hold2_hi _ _ _ H1) ].
      1-4: [> exact (proj1 G1) | exact (proj1 H1) | exact (proj2 G1) | exact (hold2_hi _ _ _ H1) ].
      1-4: [> exact (proj1 G0) | refine (proj1 (H2 _ _ _ _ _)); lia | exact (hold2_hi _ _ _ G0) | refine (hold2_hi _ _ _ (H2 _ _ _ _ _)); lia ].
      1-4: [> exact (proj1 G1) | refine (proj1 (H2 _ _ _ _ _)); lia | exact (hold2_hi _ _ _ G1) | refine (hold2_hi _ _ _ (H2 _ _ _ _ _)); lia ].
      1-4: [> exact (proj1 G0) | refine (proj1 (H3 _ _ _ _ _)); lia | exact (hold2_hi _ _ _ G0) | refine (hold2_hi _ _ _ (H3 _ _ _ _ _)); lia ].
      1-4: [> exact (proj1 G1) | refine (proj1 (H3 _ _ _ _ _)); lia | exact (hold2_hi _ _ _ G1) | refine (hold2_hi _ _ _ (H3 _ _ _ _ _)); lia ]. }
    unfold K4x2_rel. do 11 eexists; exists acc'. split.
    { apply mk_as_eq; [reflexivity| |reflexivity|reflexivity|reflexivity]. apply mk_ag_eq; try reflexivity; lia. }
    split; [holdR (dc + 1) 0|]. split; [holdR (dc + 1) 1|]. split; [holdL (dc + 1) 0|]. split; [holdL (dc + 1) 1|exact HN].
Qed.
Lemma K4x2_start junk t0 t1 fl : length junk = 16%nat -> 16 <= run -> (16 | run) ->
  exists k s, (k <= 17)%nat /\
    asteps k lhs rhs prog 0 (mk_as junk (mk_ag lp0 rp0 (4 * dst) run start cs t0 t1) fl res loc) = Some (K4x2_pc (run - 16), s) /\
    K4x2_rel 0 (run - 16) s.
Proof.
  intros Hj Hrun Hdiv.
  do 16 (destruct junk as [|? junk]; [discriminate Hj|]). destruct junk; [clear Hj|discriminate Hj].
  exists 17%nat. eexists. split; [lia|]. split.
  - etransitivity; [eapply arun_sound; [symex; reflexivity|cbn [all_of]; repeat apply conj;
      [ldR 0 0 0|ldL 0 0 0|ldR 0 1 0|ldL 0 1 0|ldR 0 0 1|ldL 0 0 1|ldR 0 1 1|ldL 0 1 1|exact I]]|reflexivity].
  - unfold K4x2_rel. do 11 eexists. exists (fun _ _ => 0). split.
    { apply mk_as_eq; [reflexivity| |reflexivity|reflexivity|reflexivity]. apply mk_ag_eq; try reflexivity; lia. }
    split; [holdR 0 0|]. split; [holdR 0 1|]. split; [holdL 0 0|]. split; [holdL 0 1|].
    intros ? ? _ _. apply lanes_zero.
Qed.
(* the last round up to label 1: rows 2 and 3 are still to be added *)
Definition K4x2_rel2 (dc : Z) (s : astate) : Prop :=
  exists R0 R1 L2 L3 x4 x5 x6 x7 lp rp t0 t1 fl acc,
    s = mk_as (K4x2_regs R0 R1 L2 L3 x4 x5 x6 x7 acc) (mk_ag lp rp (4 * dst) (0 + 16 - 16) start (cs * 2 ^ 2) t0 t1) fl res loc /\
    hold2 R0 (cR dc 0) /\ hold2 R1 (cR dc 1) /\ hold2 L2 (cL dc 2) /\ hold2 L3 (cL dc 3) /\
    (forall r c, 0 <= r < 4 -> 0 <= c < 2 -> lanes_at A B r c (acc r c) (if r <? 2 then dc + 1 else dc)).
Lemma K4x2_half dc s : K4x2_rel dc 0 s -> 0 <= dc -> 16 * (dc + 1) = run ->
  exists s', asteps 20 lhs rhs prog 17 s = Some (58%nat, s') /\ K4x2_rel2 dc s'.
Proof.
  intros (R0 & R1 & L0 & L1 & x4 & x5 & x6 & x7 & t0 & t1 & fl & acc & -> & G0 & G1 & H0 & H1 & HX) Hd Hrun.
  eexists. split.
  - etransitivity; [eapply arun_sound; [unfold K4x2_regs; symex; reflexivity|]|].
    + cbn [all_of]. repeat apply conj; [ldL dc 2 0|ldL dc 3 0|ldL dc 2 1|ldL dc 3 1|exact I].
    + replace (0 + 16 - 16 =? 0) with true by lia. reflexivity.
  - match goal with |- context [mk_as (_ :: _ :: _ :: _ :: _ :: _ :: _ :: _ :: ?l) _ _ _ _] =>
      pose (acc' := fun r c : Z => nth (Z.to_nat (2 * r + c)) l 0) end.
    unfold K4x2_rel2. do 13 eexists. exists acc'. split; [reflexivity|].
    split; [exact G0|]. split; [exact G1|]. split; [holdL dc 2|]. split; [holdL dc 3|].
    intros r c Hr Hc. unfold acc'. clear acc'.
    assert (r = 0 \/ r = 1 \/ r = 2 \/ r = 3) as R4 by lia. assert (c = 0 \/ c = 1) as C2 by lia.
    destruct R4 as [-> | [-> | [-> | ->]]]; destruct C2 as [-> | ->]; cbn [Z.ltb Z.compare Pos.compare Pos.compare_cont];
      cbn [Z.mul Z.add Pos.mul Pos.add Pos.succ Z.to_nat Pos.to_nat Pos.iter_op Nat.add nth]; try (apply HX; lia);
        (apply K4x2_mac; [lia|lia|lia|lia| | | | |apply HX; lia]).
      1-4: [> exact (proj1 G0) | exact (proj1 H0) | exact (proj2 G0) | exact (hold2_hi _ _ _ H0) ].
      1-4: [> exact (proj1 G1) | exact (proj1 H0) | exact (proj2 G1) | exact (hold2_hi _ _ _ H0) ].
      1-4: [> exact (proj1 G0) | exact (proj1 H1) | exact (proj2 G0) | exact (hold2_hi _ _ _ H1) ].
      1-4: [> exact (proj1 G1) | exact (proj1 H1) | exact (proj2 G1) | exact (hold2_hi _ _ _ H1) ].
Qed.
Definition sel2 {T} (a b : T) (i : Z) : T := match i with 0 => a | _ => b end.
Definition prod8' (b l : reg) : reg := v_mlal8 (v_mull8 b 0 l 0) b 1 l 1.
Definition K4x2_last (R0 R1 L2 L3 : reg) (acc : Z -> Z -> reg) (r c : Z) : reg :=
  match r with 0 => acc 0 c | 1 => acc 1 c | 2 => v_padal (acc 2 c) (prod8' (sel2 R0 R1 c) L2) | _ => v_padal (acc 3 c) (prod8' (sel2 R0 R1 c) L3) end.
Definition K4x2_sum (R0 R1 L2 L3 : reg) (N : Z -> Z -> reg) (c : Z) : reg :=
  v_paddD (v_paddD (prod8' (sel2 R0 R1 c) L2) 0 (padd2 R0 (N 0 0) (N 0 1)) c (padd2 R1 (N 1 0) (N 1 1)) c) 1
    (padd2 L2 (N 2 0) (N 2 1)) c (padd2 L3 (N 3 0) (N 3 1)) c.
Lemma K4x2_last_ok R0 R1 L2 L3 acc dc : 0 <= dc -> 16 * (dc + 1) <= run ->
  hold2 R0 (cR dc 0) -> hold2 R1 (cR dc 1) -> hold2 L2 (cL dc 2) -> hold2 L3 (cL dc 3) ->
  (forall r c, 0 <= r < 4 -> 0 <= c < 2 -> lanes_at A B r c (acc r c) (if r <? 2 then dc + 1 else dc)) ->
  K4x2_acc (K4x2_last R0 R1 L2 L3 acc) (dc + 1).
Proof.
  intros Hd Hr G0 G1 H2 H3 HX r c Hr' Hc.
  assert (ER : hold2 (sel2 R0 R1 c) (cR dc c)) by (assert (c = 0 \/ c = 1) as [-> | ->] by lia; assumption).
  destruct ER as [ER0 ER1]. destruct H2 as [H20 H21]. destruct H3 as [H30 H31].
  assert (r = 0 \/ r = 1 \/ r = 2 \/ r = 3) as [-> | [-> | [-> | ->]]] by lia; unfold K4x2_last, prod8'; pose proof (HX 0 c) as X0;
    pose proof (HX 1 c) as X1; pose proof (HX 2 c) as X2; pose proof (HX 3 c) as X3;
    cbn [Z.ltb Z.compare Pos.compare Pos.compare_cont] in X0, X1, X2, X3.
  - apply X0; lia.
  - apply X1; lia.
  - apply K4x2_mac; try assumption; try lia. apply X2; lia.
  - apply K4x2_mac; try assumption; try lia. apply X3; lia.
Qed.
Lemma K4x2_sum_ok R0 R1 L2 L3 N n c i : 0 <= n -> K4x2_acc N n -> 0 <= c < 2 -> 0 <= i < 4 ->
  get 32 i (K4x2_sum R0 R1 L2 L3 N c) = wrapS 32 (sumZ (blk8 A B i c) 0 n).
Proof.
  intros Hn HN Hc Hi. unfold K4x2_sum. rewrite (padd8_ok _ _ _ _ _ _ _ _ _ _ _ _ _ c i (N i c) Hi ltac:(lia)).
  - apply hs_ok; [exact Hn|now apply HN].
  - assert (c = 0 \/ c = 1) as [-> | ->] by lia; assert (i = 0 \/ i = 1 \/ i = 2 \/ i = 3) as [-> | [-> | [-> | ->]]] by lia; reflexivity.
Qed.
Lemma K4x2_finish dc s : K4x2_rel dc 0 s -> 0 <= dc -> 16 * (dc + 1) = run ->
  exists k s', (k <= 150)%nat /\ asteps k lhs rhs prog (K4x2_pc 0) s = Some (length prog, s') /\
    (forall r c, 0 <= r < 1 * 4 -> 0 <= c < 2 -> as_dst s' (dst + (r * 1 + c * cs)) =
       Some (wrapS 32 (base r c + sumZ (blk8 A B r c) 0 (run / 16)))) /\
    (forall a, (forall r c, 0 <= r < 1 * 4 -> 0 <= c < 2 -> a <> dst + (r * 1 + c * cs)) -> as_dst s' a = res a).
Proof.
  intros Hs Hd Hrun. destruct (K4x2_half dc s Hs Hd Hrun) as (s1 & E1 & Hs1). clear Hs.
  destruct Hs1 as (R0 & R1 & L2 & L3 & x4 & x5 & x6 & x7 & lp & rp & t0 & t1 & fl & acc & -> & G0 & G1 & H2 & H3 & HX).
  assert (HN := K4x2_last_ok R0 R1 L2 L3 acc dc Hd ltac:(lia) G0 G1 H2 H3 HX).
  set (N := K4x2_last R0 R1 L2 L3 acc) in *.
  replace (run / 16) with (dc + 1) by lia. change (K4x2_pc 0) with 17%nat.
  destruct (Z.eqb_spec start 0) as [Es | Es].
  - destruct (stores_finishK 4 1 2 dst cs res old ltac:(lia) ltac:(lia) Hinj Hold qs4x2 qs4x2_ok (fun _ c => K4x2_sum R0 R1 L2 L3 N c)) as (S1 & _ & _).
    exists (20 + (22 + 8))%nat. eexists. split; [lia|]. split.
    + etransitivity; [eapply asteps_app; exact E1|].
      etransitivity; [eapply asteps_app; etransitivity; [eapply arun_sound; [unfold K4x2_regs; symex; reflexivity|exact I]|]|].
      { replace (start - 0 =? 0) with true by lia. lazy [negb]. reflexivity. }
      etransitivity; [eapply arun_sound; [symex; reflexivity|]|reflexivity].
      obls_stores res qs4x2 S1.
    + apply (stores_value 1 2 dst cs res old qs4x2 (fun _ c => K4x2_sum R0 R1 L2 L3 N c)); [lia|exact Hinj|exact Hold|exact qs4x2_ok| |].
      * dst_stores res qs4x2.
      * intros rc c i Hrc Hc Hi. rewrite (K4x2_sum_ok _ _ _ _ N (dc + 1)) by (try assumption; lia). unfold base_of.
        replace (start =? 0) with true by lia. rewrite Z.add_0_l. replace (4 * rc + i) with i by lia. reflexivity.
  - pose (p0 := 4 * dst). pose (p1 := 4 * dst + cs * 2 ^ 2).
    pose (F := fun rc c : Z => v_paddd 4 (sel2 (t_load 4 res p0) (t_load 4 res p1) c) (K4x2_sum R0 R1 L2 L3 N c)).
    destruct (stores_finishK 4 1 2 dst cs res old ltac:(lia) ltac:(lia) Hinj Hold qs4x2 qs4x2_ok F) as (S1 & _ & _).
    exists (20 + (22 + (9 + 3)))%nat. eexists. split; [lia|]. split.
    + etransitivity; [eapply asteps_app; exact E1|].
      etransitivity; [eapply asteps_app; etransitivity; [eapply arun_sound; [unfold K4x2_regs; symex; reflexivity|exact I]|]|].
      { replace (start - 0 =? 0) with false by lia. lazy [negb]. reflexivity. }
      etransitivity; [eapply asteps_app; eapply arun_sound; [symex; reflexivity|]|].
      { cbn [all_of]. repeat apply conj; try exact I.
        - eapply (ldW 1 2 dst cs res old _ 0 0); [lia|exact Hold|lia..].
        - eapply (ldW 1 2 dst cs res old _ 0 1); [lia|exact Hold|lia..]. }
      etransitivity; [eapply arun_sound; [symex; reflexivity|]|reflexivity].
      obls_stores res qs4x2 S1.
    + apply (stores_value 1 2 dst cs res old qs4x2 F); [lia|exact Hinj|exact Hold|exact qs4x2_ok| |].
      * dst_stores res qs4x2.
      * intros rc c i Hrc Hc Hi. unfold F. rewrite g_paddd by lia. rewrite (K4x2_sum_ok _ _ _ _ N (dc + 1)) by (try assumption; lia). unfold base_of.
        replace (start =? 0) with false by lia. replace (4 * rc + i) with i by lia. rewrite wrapS_add_r by lia.
        assert (EL : get 32 i (sel2 (t_load 4 res p0) (t_load 4 res p1) c) = wrapS 32 (old i c)).
        { assert (c = 0 \/ c = 1) as [-> | ->] by lia; cbn [sel2];
            (eapply (ldW 1 2 dst cs res old _ 0); [lia|exact Hold|unfold p0, p1; lia|lia|lia|exact Hi]). }
        rewrite EL. rewrite wrapS_add_l by lia. reflexivity.
Qed.
Lemma K4x2_ok junk t0 t1 fl fuel : length junk = 16%nat -> 16 <= run -> (16 | run) ->
  (193 + Z.to_nat (run / 16) * 41 <= fuel)%nat ->
  exists s', aexec fuel lhs rhs prog 0 (mk_as junk (mk_ag lp0 rp0 (4 * dst) run start cs t0 t1) fl res loc) = Some s' /\
    (forall r c, 0 <= r < 1 * 4 -> 0 <= c < 2 -> as_dst s' (dst + (r * 1 + c * cs)) =
       Some (wrapS 32 (base r c + sumZ (blk8 A B r c) 0 (run / 16)))) /\
    (forall a, (forall r c, 0 <= r < 1 * 4 -> 0 <= c < 2 -> a <> dst + (r * 1 + c * cs)) -> as_dst s' a = res a).
Proof.
  intros Hj Hrun Hdiv Hfu.
  eapply (arm_whole lhs rhs prog 16 run 41 K4x2_pc K4x2_rel K4x2_loop 17 150); [lia|lia|exact Hdiv| | |lia].
  - apply K4x2_start; assumption.
  - intros s Hs. destruct Hdiv as [q Hq]. replace (run / 16) with q in Hs by lia.
    eapply K4x2_finish; [exact Hs|lia|lia].
Qed.
End K4x2.
