(* MsaBlocks.v: the blocks of the MSA kernel for uint8, executed symbolically *)
From Verif Require Import Base BaseLemmas CommonModel PackModel GemmSpec ComputeModel KernelSpec SimdModel X86Model X86Proofs X86Loop
  ArmModel ArmProofs ArmLoop Arm64Blocks MsaModel MsaKernels MsaProofs.

Ltac msymex prog := lazy [mrun mstepT nth_error app fst snd mwget mwset mgset mdset ms_w ms_g ms_dst nth set_nth
  mget mset m_lhs m_rhs m_dst m_dst1 m_dst2 m_dst3 m_run m_start m_stride m_a0 m_a1 Bool.eqb prog].
Lemma mk_ms_eq v v' g g' d d' : v = v' -> g = g' -> d = d' -> mk_ms v g d = mk_ms v' g' d'.
Proof. intros -> -> ->. reflexivity. Qed.
Lemma mk_mg_eq a a' b b' c c' c1 c1' c2 c2' c3 c3' d d' e e' f f' g g' h h' :
  a = a' -> b = b' -> c = c' -> c1 = c1' -> c2 = c2' -> c3 = c3' -> d = d' -> e = e' -> f = f' -> g = g' -> h = h' ->
  mk_mg a b c c1 c2 c3 d e f g h = mk_mg a' b' c' c1' c2' c3' d' e' f' g' h'.
Proof. intros -> -> -> -> -> -> -> -> -> -> ->. reflexivity. Qed.
Ltac mdst_stores res qs :=
  cbn [ms_dst]; match goal with |- ?m = storesT 4 _ ?l' => let l := stores_of m constr:(@nil (Z * reg)) in
    change m with (storesT 4 res l); apply f_equal; unfold store_list, qs; cbn [map fst snd]; stores_eq end.
Lemma mstores_value C K dst cs res old qs F m V :
  1 <= C ->
  (forall r c r' c', 0 <= r < C * 4 -> 0 <= c < K -> 0 <= r' < C * 4 -> 0 <= c' < K ->
     r * 1 + c * cs = r' * 1 + c' * cs -> r = r' /\ c = c') ->
  (forall r c, 0 <= r < C * 4 -> 0 <= c < K -> res (dst + (r * 1 + c * cs)) = Some (old r c)) ->
  NoDup qs /\ (forall c rc, In (c, rc) qs <-> 0 <= c < K /\ 0 <= rc < C) ->
  m = storesT 4 res (map (fun p => (4 * fst p, snd p)) (store_list 4 dst cs qs F)) ->
  (forall rc c i, 0 <= rc < C -> 0 <= c < K -> 0 <= i < 4 -> get 32 i (F rc c) = V (4 * rc + i) c) ->
  (forall r c, 0 <= r < C * 4 -> 0 <= c < K -> m (dst + (r * 1 + c * cs)) = Some (V r c)) /\
  (forall a, (forall r c, 0 <= r < C * 4 -> 0 <= c < K -> a <> dst + (r * 1 + c * cs)) -> m a = res a).
Proof.
  intros HC Hinj Hold Hqs E HV.
  exact (stores_value C K dst cs res old qs F (mk_as [] (mk_ag 0 0 0 0 0 0 0 0) (mk_af false false) m res) V HC Hinj Hold Hqs E HV).
Qed.

(* 16 bytes of width-major 4x2 cells: cell o and the next one *)
Definition two_cells (C : Z) (b : mem) (p dc o j : Z) : Z := cellW 4 2 C FUint8 b p dc (o + j / 8) (j mod 8).
Lemma ld_cells C b p run A a dc o : holds_run (mk_side_fmt 4 2 CWidthMajor C FUint8) b p run A ->
  a = p + (dc * C + o) * 8 -> 0 <= dc -> 2 * (dc + 1) <= run -> 0 <= o -> o + 1 < C ->
  load_cells b a 16 <> None /\ is16 (vec_of 16 8 (t_cells b a 16)) (two_cells C b p dc o).
Proof.
  intros H -> Hd Hr Ho Ho2.
  assert (G : forall j, 0 <= j < Z.of_nat 16 ->
    b (p + (dc * C + o) * 8 + j) = Some (two_cells C b p dc o j) /\ 0 <= two_cells C b p dc o j < 256).
  { intros j Hj. destruct (cellW_ok 4 2 C FUint8 b p run A ltac:(lia) ltac:(lia) H dc (o + j / 8) (j mod 8)) as (E & Hx & _); try lia.
    split; [|exact Hx]. unfold two_cells. rewrite <- E. f_equal. lia. }
  destruct (t_cells_ok b _ 16 (two_cells C b p dc o) (fun j Hj => proj1 (G j Hj))) as [E1 E2].
  split; [exact E1|]. intros j Hj. rewrite E2. unfold vec_of. rewrite getU_vpack by lia. unfold bytes_of. rewrite (nth_map_seq (two_cells C b p dc o)) by lia. apply wrapU_byte. apply G. lia.
Qed.
#[local] Opaque t_cells t_load t_store load_cells v_load v_store vec_of
  w_ldi w_ilvr w_ilvl w_splati w_dpadd_u w_dpadd_s w_dotp_s w_hadd_s w_pckev w_addv.
(* the words of one cell *)
Definition isw (x : reg) (f : Z -> Z) : Prop := forall j, 0 <= j < 8 -> getU 16 j x = f j.
Lemma isw_r C b p dc o x : is16 x (two_cells C b p dc o) -> isw (w_ilvr (w_ldi 8 0) x) (cellW 4 2 C FUint8 b p dc o).
Proof.
  intros H j Hj. rewrite ldi_zero. rewrite gu_ilvr by lia. rewrite H by lia. unfold two_cells. f_equal; lia.
Qed.
Lemma isw_l C b p dc o o' x : is16 x (two_cells C b p dc o) -> o' = o + 1 -> isw (w_ilvl (w_ldi 8 0) x) (cellW 4 2 C FUint8 b p dc o').
Proof.
  intros H -> j Hj. rewrite ldi_zero. rewrite gu_ilvl by lia. rewrite H by lia. unfold two_cells. f_equal; lia.
Qed.

Section K12x8.
Variables (lhs rhs : mem) (lp0 rp0 run dst start cs : Z) (res : mem) (A B old : Z -> Z -> Z) (e1 e2 e3 : Z).
Hypothesis HA : holds_run (mk_side_fmt 4 2 CWidthMajor 3 FUint8) lhs lp0 run A.
Hypothesis HB : holds_run (mk_side_fmt 4 2 CWidthMajor 2 FUint8) rhs rp0 run B.
Hypothesis Hinj : forall r c r' c', 0 <= r < 3 * 4 -> 0 <= c < 8 -> 0 <= r' < 3 * 4 -> 0 <= c' < 8 ->
  r * 1 + c * cs = r' * 1 + c' * cs -> r = r' /\ c = c'.
Hypothesis Hold : forall r c, 0 <= r < 3 * 4 -> 0 <= c < 8 -> res (dst + (r * 1 + c * cs)) = Some (old r c).
Notation prog := MSA_Kernel12x8Depth2_asm.
Notation base := (base_of start old).
Definition M12x8_regs (x0 x1 x2 x3 x4 x5 x6 x7 : reg) (a : Z -> Z -> reg) : list reg :=
  [a 0 0; a 0 1; a 0 2; a 0 3; a 1 0; a 1 1; a 1 2; a 1 3; a 2 0; a 2 1; a 2 2; a 2 3;
   a 0 4; a 0 5; a 0 6; a 0 7; a 1 4; a 1 5; a 1 6; a 1 7; a 2 4; a 2 5; a 2 6; a 2 7; x0; x1; x2; x3; x4; x5; x6; x7].
Definition M12x8_rel (dc m : Z) (s : mstate) : Prop :=
  exists x0 x1 x2 x3 x4 x5 x6 x7 t0 t1 acc,
    s = mk_ms (M12x8_regs x0 x1 x2 x3 x4 x5 x6 x7 acc)
          (mk_mg (lp0 + dc * 24) (rp0 + dc * 16) (4 * dst) e1 e2 e3 m start (cs * 2 ^ 2) t0 t1) res /\
    acc_at 3 8 base A B acc (2 * dc).
Definition M12x8_pc (m : Z) : nat := if m =? 0 then 104 else 58.
Definition M12x8_next (X0 X1 Y : reg) (acc : Z -> Z -> reg) (rc c : Z) : reg :=
  let z := w_ldi 8 0 in
  w_dpadd_u (acc rc c) (sel3 (w_ilvr z X0) (w_ilvr z X1) (w_ilvl z X1) rc)
    (w_splati (if c <? 4 then w_ilvr z Y else w_ilvl z Y) (c mod 4)).
Lemma M12x8_next_ok X0 X1 Y acc dc : 0 <= dc -> 2 * (dc + 1) <= run ->
  is16 X0 (two_cells 3 lhs lp0 dc 0) -> is16 X1 (two_cells 3 lhs lp0 dc 1) -> is16 Y (two_cells 2 rhs rp0 dc 0) ->
  acc_at 3 8 base A B acc (2 * dc) -> acc_at 3 8 base A B (M12x8_next X0 X1 Y acc) (2 * (dc + 1)).
Proof.
  intros Hd Hr H0 H1 G0 HX. replace (2 * (dc + 1)) with (2 * dc + 2) by lia.
  apply (acc_at_next 3 8 base A B acc); [lia|lia|exact HX|]. intros rc c i Hrc Hc Hi. unfold M12x8_next. cbv zeta.
  assert (EL : isw (sel3 (w_ilvr (w_ldi 8 0) X0) (w_ilvr (w_ldi 8 0) X1) (w_ilvl (w_ldi 8 0) X1) rc) (cellW 4 2 3 FUint8 lhs lp0 dc rc)).
  { assert (rc = 0 \/ rc = 1 \/ rc = 2) as [-> | [-> | ->]] by lia; cbn [sel3];
      [now apply isw_r|now apply isw_r|now apply (isw_l 3 lhs lp0 dc 1)]. }
  assert (ER : isw (if c <? 4 then w_ilvr (w_ldi 8 0) Y else w_ilvl (w_ldi 8 0) Y) (cellW 4 2 2 FUint8 rhs rp0 dc (c / 4))).
  { destruct (Z.ltb_spec c 4) as [L | L]; [replace (c / 4) with 0 by lia; now apply isw_r|
      replace (c / 4) with 1 by lia; now apply (isw_l 2 rhs rp0 dc 0)]. }
  set (xL := sel3 _ _ _ _) in *. set (xR := if c <? 4 then _ else _) in *. clearbody xL xR.
  rewrite g_dpadd_u by lia. f_equal. f_equal.
  pose proof (gu_splati xR (c mod 4) i 0 Hi ltac:(lia) ltac:(lia)) as S0. pose proof (gu_splati xR (c mod 4) i 1 Hi ltac:(lia) ltac:(lia)) as S1.
  rewrite Z.add_0_r in S0. rewrite S0, S1. rewrite !EL, !ER by lia. rewrite sumZ_2.
  assert (GA : forall e, 0 <= e < 2 -> cellW 4 2 3 FUint8 lhs lp0 dc rc (2 * i + e) = A (4 * rc + i) (2 * dc + e)).
  { intros e He. pose proof (proj2 (proj2 (cellW_ok 4 2 3 FUint8 lhs lp0 run A ltac:(lia) ltac:(lia) HA dc rc (2 * i + e) ltac:(lia) ltac:(lia) ltac:(lia) ltac:(lia)))) as E.
    cbn [operand_value kind_signed] in E. rewrite E. f_equal; lia. }
  assert (GB : forall e, 0 <= e < 2 -> cellW 4 2 2 FUint8 rhs rp0 dc (c / 4) (2 * (c mod 4) + e) = B c (2 * dc + e)).
  { intros e He. pose proof (proj2 (proj2 (cellW_ok 4 2 2 FUint8 rhs rp0 run B ltac:(lia) ltac:(lia) HB dc (c / 4) (2 * (c mod 4) + e) ltac:(lia) ltac:(lia) ltac:(lia) ltac:(lia)))) as E.
    cbn [operand_value kind_signed] in E. rewrite E. f_equal; lia. }
  pose proof (GA 0 ltac:(lia)) as A0. pose proof (GA 1 ltac:(lia)) as A1. pose proof (GB 0 ltac:(lia)) as B0. pose proof (GB 1 ltac:(lia)) as B1.
  rewrite !Z.add_0_r in A0, B0. rewrite Z.add_0_r, A0, A1, B0, B1. reflexivity.
Qed.
Lemma M12x8_loop dc m s : M12x8_rel dc m s -> 0 <= dc -> 0 < m -> 2 * dc + m = run -> (2 | m) ->
  exists s', msteps 46 lhs rhs prog (M12x8_pc m) s = Some (M12x8_pc (m - 2), s') /\ M12x8_rel (dc + 1) (m - 2) s'.
Proof.
  intros (x0 & x1 & x2 & x3 & x4 & x5 & x6 & x7 & t0 & t1 & acc & -> & HX) Hd Hm Hrun [q Hq].
  unfold M12x8_pc at 1. replace (m =? 0) with false by lia.
  eexists. split.
  - etransitivity; [eapply mrun_sound; [unfold M12x8_regs; msymex prog; reflexivity|]|].
    + cbn [all_of]. repeat apply conj.
      * eapply (ld_cells 3 lhs lp0 run A _ dc 0 HA); lia.
      * eapply (ld_cells 3 lhs lp0 run A _ dc 1 HA); lia.
      * eapply (ld_cells 2 rhs rp0 run B _ dc 0 HB); lia.
      * exact I.
    + apply f_equal. apply f_equal2; [|reflexivity]. unfold M12x8_pc. replace (m + -2) with (m - 2) by lia. destruct (m - 2 =? 0); reflexivity.
  - unfold M12x8_rel.
    do 10 eexists. exists (M12x8_next (vec_of 16 8 (t_cells lhs (lp0 + dc * 24 + 0) 16)) (vec_of 16 8 (t_cells lhs (lp0 + dc * 24 + 8) 16))
      (vec_of 16 8 (t_cells rhs (rp0 + dc * 16 + 0) 16)) acc). split.
    { apply mk_ms_eq; [reflexivity| |reflexivity]. apply mk_mg_eq; try reflexivity; lia. }
    apply M12x8_next_ok; [lia|lia| | | |exact HX].
    + eapply (ld_cells 3 lhs lp0 run A _ dc 0 HA); lia.
    + eapply (ld_cells 3 lhs lp0 run A _ dc 1 HA); lia.
    + eapply (ld_cells 2 rhs rp0 run B _ dc 0 HB); lia.
Qed.
Ltac ldW12x8 rc c := eapply (ldW 3 8 dst cs res old _ rc c); [lia|exact Hold|lia..].
Lemma M12x8_start junk t0 t1 : length junk = 32%nat -> 2 <= run -> (2 | run) ->
  exists k s, (k <= 34)%nat /\
    msteps k lhs rhs prog 0 (mk_ms junk (mk_mg lp0 rp0 (4 * dst) e1 e2 e3 run start cs t0 t1) res) = Some (M12x8_pc run, s) /\
    M12x8_rel 0 run s.
Proof.
  intros Hj Hrun Hdiv.
  do 32 (destruct junk as [|? junk]; [discriminate Hj|]). destruct junk; [clear Hj|discriminate Hj].
  destruct (Z.eqb_spec start 0) as [Es | Es].
  - exists (2 + 24)%nat. eexists. split; [lia|]. split.
    + etransitivity; [eapply msteps_app; etransitivity; [eapply mrun_sound; [msymex prog; reflexivity|]|]|].
      * exact I.
      * replace (start =? 0) with true by lia. reflexivity.
      * etransitivity; [eapply mrun_sound; [msymex prog; reflexivity|exact I]|].
        apply f_equal. apply f_equal2; [|reflexivity]. unfold M12x8_pc. replace (run =? 0) with false by lia. reflexivity.
    + unfold M12x8_rel. do 10 eexists. exists (fun _ _ => w_ldi 32 0). split.
      { apply mk_ms_eq; [reflexivity| |reflexivity]. apply mk_mg_eq; try reflexivity; lia. }
      rewrite ldiw_zero. apply acc_at_zero. intros ? ?. unfold base_of. replace (start =? 0) with true by lia. reflexivity.
  - exists (2 + 32)%nat. eexists. split; [lia|]. split.
    + etransitivity; [eapply msteps_app; etransitivity; [eapply mrun_sound; [msymex prog; reflexivity|]|]|].
      * exact I.
      * replace (start =? 0) with false by lia. reflexivity.
      * etransitivity; [eapply mrun_sound; [msymex prog; reflexivity|cbn [all_of]; repeat apply conj; try exact I]|].
        all: cycle -1.
        { apply f_equal. apply f_equal2; [|reflexivity]. unfold M12x8_pc. replace (run =? 0) with false by lia. reflexivity. }
        all: [> ldW12x8 0 0 | ldW12x8 1 0 | ldW12x8 2 0 | ldW12x8 0 1 | ldW12x8 1 1 | ldW12x8 2 1 | ldW12x8 0 2 | ldW12x8 1 2 | ldW12x8 2 2 | ldW12x8 0 3 | ldW12x8 1 3 | ldW12x8 2 3 | ldW12x8 0 4 | ldW12x8 1 4 | ldW12x8 2 4 | ldW12x8 0 5 | ldW12x8 1 5 | ldW12x8 2 5 | ldW12x8 0 6 | ldW12x8 1 6 | ldW12x8 2 6 | ldW12x8 0 7 | ldW12x8 1 7 | ldW12x8 2 7].
    + match goal with |- context [mk_ms ?l _ _] =>
        pose (acc := fun rc c : Z => nth (Z.to_nat (4 * rc + 12 * (c / 4) + c mod 4)) l 0) end.
      unfold M12x8_rel. do 10 eexists. exists acc. split.
      { apply mk_ms_eq; [reflexivity| |reflexivity]. apply mk_mg_eq; try reflexivity; lia. }
      intros rc c i Hrc Hc Hi. rewrite sumZ_empty by lia. unfold base_of. replace (start =? 0) with false by lia. rewrite Z.add_0_r.
      assert (c = 0 \/ c = 1 \/ c = 2 \/ c = 3 \/ c = 4 \/ c = 5 \/ c = 6 \/ c = 7) as C8 by lia.
      assert (rc = 0 \/ rc = 1 \/ rc = 2) as C3 by lia. unfold acc. clear acc.
      destruct C8 as [-> | [-> | [-> | [-> | [-> | [-> | [-> | ->]]]]]]]; destruct C3 as [-> | [-> | ->]];
        (eapply (ldW 3 8 dst cs res old); [lia|exact Hold|lia|lia|lia|exact Hi]).
Qed.
Lemma M12x8_finish dc s : M12x8_rel dc 0 s -> 0 <= dc -> 2 * dc = run ->
  exists k s', (k <= 50)%nat /\ msteps k lhs rhs prog (M12x8_pc 0) s = Some (length prog, s') /\
    (forall r c, 0 <= r < 3 * 4 -> 0 <= c < 8 -> ms_dst s' (dst + (r * 1 + c * cs)) =
       Some (wrapS 32 (base r c + sumZ (fun d => A r d * B c d) 0 run))) /\
    (forall a, (forall r c, 0 <= r < 3 * 4 -> 0 <= c < 8 -> a <> dst + (r * 1 + c * cs)) -> ms_dst s' a = res a).
Proof.
  intros (x0 & x1 & x2 & x3 & x4 & x5 & x6 & x7 & t0 & t1 & acc & -> & HX) Hd Hrun.
  destruct (stores_finishK 4 3 8 dst cs res old ltac:(lia) ltac:(lia) Hinj Hold qs12x8 qs12x8_ok acc) as (S1 & _ & _).
  exists (length prog - 104)%nat. eexists. split; [apply Nat.leb_le; reflexivity|]. split.
  - change (M12x8_pc 0) with 104%nat. let k := eval compute in (length prog - 104)%nat in change (length prog - 104)%nat with k.
    etransitivity; [eapply mrun_sound; [unfold M12x8_regs; msymex prog; reflexivity|]|reflexivity].
    obls_stores res qs12x8 S1.
  - apply (mstores_value 3 8 dst cs res old qs12x8 acc); [lia|exact Hinj|exact Hold|exact qs12x8_ok| |].
    + mdst_stores res qs12x8.
    + intros rc c i Hrc Hc Hi. rewrite HX by assumption. rewrite Hrun. reflexivity.
Qed.
Lemma M12x8_ok junk t0 t1 fuel : length junk = 32%nat -> 2 <= run -> (2 | run) ->
  (84 + Z.to_nat (run / 2) * 46 <= fuel)%nat ->
  exists s', mexec fuel lhs rhs prog 0 (mk_ms junk (mk_mg lp0 rp0 (4 * dst) e1 e2 e3 run start cs t0 t1) res) = Some s' /\
    (forall r c, 0 <= r < 3 * 4 -> 0 <= c < 8 -> ms_dst s' (dst + (r * 1 + c * cs)) =
       Some (wrapS 32 (base r c + sumZ (fun d => A r d * B c d) 0 run))) /\
    (forall a, (forall r c, 0 <= r < 3 * 4 -> 0 <= c < 8 -> a <> dst + (r * 1 + c * cs)) -> ms_dst s' a = res a).
Proof.
  intros Hj Hrun Hdiv Hfu.
  eapply (msa_whole lhs rhs prog 2 run 46 M12x8_pc M12x8_rel M12x8_loop 34 50); [lia|lia|exact Hdiv| | |lia].
  - apply M12x8_start; assumption.
  - intros s Hs. destruct Hdiv as [q Hq]. replace (run / 2) with q in Hs by lia.
    eapply M12x8_finish; [exact Hs|lia|lia].
Qed.
End K12x8.
