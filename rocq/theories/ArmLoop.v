(* ArmLoop.v: what the NEON kernels share: the bytes of the packed cells, the main
   loop, the accumulators and the final stores *)
From Verif Require Import Base BaseLemmas CommonModel CommonProofs PackModel GemmSpec ComputeModel KernelSpec KernelProofs
  SimdModel SimdProofs X86Model X86Proofs X86Loop ArmModel ArmProofs.

(* ------------------------------------------------------------------ *)
(* the byte at (w,d) of a packed block *)
Definition rawb (f : side_fmt) (b : mem) (p w d : Z) : Z := match b (p + run_index f w d) with Some x => x | None => 0 end.
Lemma rawb_ok f b p run A w d : holds_run f b p run A -> 0 <= w < sf_width f -> 0 <= d < run ->
  b (p + run_index f w d) = Some (rawb f b p w d) /\ 0 <= rawb f b p w d < 256 /\
  operand_value (sf_signed f) (rawb f b p w d) = A w d.
Proof. intros H Hw Hd. destruct (H w d Hw Hd) as (x & E & Hx & Ex). unfold rawb. rewrite E. auto. Qed.

Definition kind_signed (k : side_kind) : bool := match k with FUint8 => false | FInt8 | FInt8Inputs => true end.
Section Cells.
Variables (cw cd C : Z) (sg : side_kind) (b : mem) (p run : Z) (A : Z -> Z -> Z).
Hypothesis Hcw : 0 < cw.
Hypothesis Hcd : 0 < cd.
(* byte j of cell (dc, rc) *)
Definition cellW (dc rc j : Z) : Z := rawb (mk_side_fmt cw cd CWidthMajor C sg) b p (cw * rc + j / cd) (cd * dc + j mod cd).
Definition cellD (dc rc j : Z) : Z := rawb (mk_side_fmt cw cd CDepthMajor C sg) b p (cw * rc + j mod cw) (cd * dc + j / cw).
Lemma cellW_ok : holds_run (mk_side_fmt cw cd CWidthMajor C sg) b p run A -> forall dc rc j,
  0 <= dc -> cd * (dc + 1) <= run -> 0 <= rc < C -> 0 <= j < cw * cd ->
  b (p + (dc * C + rc) * (cw * cd) + j) = Some (cellW dc rc j) /\ 0 <= cellW dc rc j < 256 /\
  operand_value (kind_signed sg) (cellW dc rc j) = A (cw * rc + j / cd) (cd * dc + j mod cd).
Proof.
  intros H dc rc j Hdc Hrun Hrc Hj.
  assert (Q : 0 <= j / cd < cw) by (split; [apply Z.div_pos; lia|apply Z.div_lt_upper_bound; lia]).
  pose proof (Z.mod_pos_bound j cd Hcd) as Q2.
  destruct (rawb_ok _ b p run A (cw * rc + j / cd) (cd * dc + j mod cd) H) as (E & Hx & Ex).
  - unfold sf_width. cbn [sf_cells sf_cw]. nia.
  - nia.
  - fold (cellW dc rc j) in E, Hx, Ex. split; [|split; [exact Hx|exact Ex]]. rewrite <- E. f_equal.
    unfold run_index, cell_off. cbn [sf_cw sf_cd sf_cells sf_order].
    replace ((cd * dc + j mod cd) / cd) with dc by (apply (Z.div_unique _ _ _ (j mod cd)); lia).
    replace ((cd * dc + j mod cd) mod cd) with (j mod cd) by (apply (Z.mod_unique _ _ dc); lia).
    replace ((cw * rc + j / cd) / cw) with rc by (apply (Z.div_unique _ _ _ (j / cd)); lia).
    replace ((cw * rc + j / cd) mod cw) with (j / cd) by (apply (Z.mod_unique _ _ rc); lia).
    pose proof (Z.div_mod j cd ltac:(lia)). lia.
Qed.
Lemma cellD_ok : holds_run (mk_side_fmt cw cd CDepthMajor C sg) b p run A -> forall dc rc j,
  0 <= dc -> cd * (dc + 1) <= run -> 0 <= rc < C -> 0 <= j < cw * cd ->
  b (p + (dc * C + rc) * (cw * cd) + j) = Some (cellD dc rc j) /\ 0 <= cellD dc rc j < 256 /\
  operand_value (kind_signed sg) (cellD dc rc j) = A (cw * rc + j mod cw) (cd * dc + j / cw).
Proof.
  intros H dc rc j Hdc Hrun Hrc Hj.
  assert (Q : 0 <= j / cw < cd) by (split; [apply Z.div_pos; lia|apply Z.div_lt_upper_bound; lia]).
  pose proof (Z.mod_pos_bound j cw Hcw) as Q2.
  destruct (rawb_ok _ b p run A (cw * rc + j mod cw) (cd * dc + j / cw) H) as (E & Hx & Ex).
  - unfold sf_width. cbn [sf_cells sf_cw]. nia.
  - nia.
  - fold (cellD dc rc j) in E, Hx, Ex. split; [|split; [exact Hx|exact Ex]]. rewrite <- E. f_equal.
    unfold run_index, cell_off. cbn [sf_cw sf_cd sf_cells sf_order].
    replace ((cd * dc + j / cw) / cd) with dc by (apply (Z.div_unique _ _ _ (j / cw)); lia).
    replace ((cd * dc + j / cw) mod cd) with (j / cw) by (apply (Z.mod_unique _ _ dc); lia).
    replace ((cw * rc + j mod cw) / cw) with rc by (apply (Z.div_unique _ _ _ (j mod cw)); lia).
    replace ((cw * rc + j mod cw) mod cw) with (j mod cw) by (apply (Z.mod_unique _ _ rc); lia).
    pose proof (Z.div_mod j cw ltac:(lia)). lia.
Qed.
End Cells.

(* ------------------------------------------------------------------ *)
(* the main loop: kd levels of depth per round, dc rounds done, m levels left
   beyond the current one; pc_of m is where the machine is *)
Section Loop.
Variables (lhs rhs : mem) (prog : list aop) (kd run : Z) (kL : nat) (pc_of : Z -> nat) (rel : Z -> Z -> astate -> Prop).
Hypothesis BL : forall dc m s, rel dc m s -> 0 <= dc -> 0 < m -> kd * (dc + 1) + m = run -> (kd | m) ->
  exists s', asteps kL lhs rhs prog (pc_of m) s = Some (pc_of (m - kd), s') /\ rel (dc + 1) (m - kd) s'.
Lemma arm_loop q : 0 < kd -> forall dc s, rel dc (kd * Z.of_nat q) s -> 0 <= dc -> kd * (dc + 1) + kd * Z.of_nat q = run ->
  exists s', asteps (q * kL) lhs rhs prog (pc_of (kd * Z.of_nat q)) s = Some (pc_of 0, s') /\ rel (dc + Z.of_nat q) 0 s'.
Proof.
  intros Hkd. induction q as [|q IH]; intros dc s Hr Hd Hrun.
  - exists s. cbn [Nat.mul asteps Z.of_nat] in *. rewrite Z.mul_0_r in *. rewrite Z.add_0_r. split; [reflexivity|exact Hr].
  - destruct (BL dc _ s Hr Hd ltac:(nia) Hrun ltac:(exists (Z.of_nat (S q)); lia)) as (s1 & E1 & R1).
    replace (kd * Z.of_nat (S q) - kd) with (kd * Z.of_nat q) in E1, R1 by lia.
    destruct (IH (dc + 1) s1 R1 ltac:(lia) ltac:(lia)) as (s2 & E2 & R2).
    exists s2. split.
    + replace (S q * kL)%nat with (kL + q * kL)%nat by lia. rewrite (asteps_app _ _ _ _ _ _ _ _ _ E1). exact E2.
    + replace (dc + Z.of_nat (S q)) with (dc + 1 + Z.of_nat q) by lia. exact R2.
Qed.
(* start, loop and finish together *)
Variables (k0 kF : nat) (P : astate -> Prop).
Lemma arm_whole s0 fuel : 0 < kd -> 0 < run -> (kd | run) ->
  (exists k s, (k <= k0)%nat /\ asteps k lhs rhs prog 0 s0 = Some (pc_of (run - kd), s) /\ rel 0 (run - kd) s) ->
  (forall s, rel (run / kd - 1) 0 s ->
     exists k s', (k <= kF)%nat /\ asteps k lhs rhs prog (pc_of 0) s = Some (length prog, s') /\ P s') ->
  (k0 + Z.to_nat (run / kd) * kL + kF <= fuel)%nat ->
  exists s', aexec fuel lhs rhs prog 0 s0 = Some s' /\ P s'.
Proof.
  intros Hkd Hrun [q Hq] (k & s & Hk & E0 & R0) HF Hfu.
  assert (Ed : run / kd = q) by (rewrite Hq; apply Z.div_mul; lia). rewrite Ed in *.
  assert (Hq1 : 1 <= q) by nia.
  assert (Eq : run - kd = kd * Z.of_nat (Z.to_nat (q - 1))) by (rewrite Z2Nat.id by lia; lia). rewrite Eq in E0, R0.
  destruct (arm_loop (Z.to_nat (q - 1)) Hkd 0 s R0 ltac:(lia) ltac:(rewrite <- Eq; lia)) as (s1 & E1 & R1).
  replace (0 + Z.of_nat (Z.to_nat (q - 1))) with (q - 1) in R1 by lia.
  destruct (HF s1 R1) as (k2 & s2 & Hk2 & E2 & Hp). exists s2. split; [|exact Hp].
  set (kl := (Z.to_nat (q - 1) * kL)%nat) in *.
  assert (Hl : (kl <= Z.to_nat q * kL)%nat) by (unfold kl; apply Nat.mul_le_mono_r; lia).
  replace fuel with (k + (kl + (k2 + (fuel - k - kl - k2))))%nat by lia.
  rewrite (aexec_steps _ _ _ _ _ _ _ _ _ E0), (aexec_steps _ _ _ _ _ _ _ _ _ E1), (aexec_steps _ _ _ _ _ _ _ _ _ E2).
  apply aexec_end.
Qed.
End Loop.

(* ------------------------------------------------------------------ *)
(* accumulators: dword i of acc rc c belongs to row 4*rc+i and column c *)
Section Acc.
Variables (C K : Z) (base : Z -> Z -> Z) (A B : Z -> Z -> Z).
Definition acc_at (acc : Z -> Z -> reg) (D : Z) : Prop :=
  forall rc c i, 0 <= rc < C -> 0 <= c < K -> 0 <= i < 4 ->
    get 32 i (acc rc c) = wrapS 32 (base (4 * rc + i) c + sumZ (fun d => A (4 * rc + i) d * B c d) 0 D).
Lemma acc_at_next acc acc' D n : 0 <= D -> 0 <= n -> acc_at acc D ->
  (forall rc c i, 0 <= rc < C -> 0 <= c < K -> 0 <= i < 4 ->
     get 32 i (acc' rc c) = wrapS 32 (get 32 i (acc rc c) + sumZ (fun d => A (4 * rc + i) d * B c d) D (D + n))) ->
  acc_at acc' (D + n).
Proof.
  intros HD Hn H H' rc c i Hrc Hc Hi. rewrite H' by assumption. rewrite H by assumption. rewrite wrapS_add_l by lia. f_equal.
  rewrite (sumZ_split (fun d => A (4 * rc + i) d * B c d) 0 D (D + n)) by lia. lia.
Qed.
Lemma acc_at_zero : (forall r c, base r c = 0) -> acc_at (fun _ _ => 0) 0.
Proof. intros Hb rc c i _ _ _. rewrite get_0 by lia. rewrite Hb. rewrite sumZ_empty by lia. reflexivity. Qed.
End Acc.
Lemma sumZ_2 f a : sumZ f a (a + 2) = f a + f (a + 1).
Proof. replace (a + 2) with (a + 1 + 1) by lia. rewrite !sumZ_last by lia. rewrite sumZ_empty by lia. lia. Qed.
Lemma sumZ_4 f a : sumZ f a (a + 4) = f a + f (a + 1) + f (a + 2) + f (a + 3).
Proof.
  replace (a + 4) with (a + 1 + 1 + 1 + 1) by lia. rewrite !sumZ_last by lia. rewrite sumZ_empty by lia.
  replace (a + 1 + 1) with (a + 2) by lia. replace (a + 2 + 1) with (a + 3) by lia. lia.
Qed.

(* ------------------------------------------------------------------ *)
(* the accumulators of K columns of C cells, in the order they are stored *)
Section FinishK.
Variables (n : nat) (C K dst cs : Z) (res : mem) (old : Z -> Z -> Z).
Notation N := (Z.of_nat n).
Hypothesis Hn : 1 <= N.
Hypothesis HC : 1 <= C.
Hypothesis Hinj : forall r c r' c', 0 <= r < C * N -> 0 <= c < K -> 0 <= r' < C * N -> 0 <= c' < K ->
  r * 1 + c * cs = r' * 1 + c' * cs -> r = r' /\ c = c'.
Hypothesis Hold : forall r c, 0 <= r < C * N -> 0 <= c < K -> res (dst + (r * 1 + c * cs)) = Some (old r c).
Variable qs : list (Z * Z).    (* (column, cell) *)
Hypothesis Hqs : NoDup qs /\ forall c rc, In (c, rc) qs <-> 0 <= c < K /\ 0 <= rc < C.

Lemma row_splitK r : 0 <= r < C * N -> 0 <= r / N < C /\ 0 <= r mod N < N /\ r = N * (r / N) + r mod N.
Proof.
  intros H. pose proof (Z.mod_pos_bound r N ltac:(lia)). pose proof (Z.div_mod r N ltac:(lia)).
  split; [|split; [lia|lia]]. split; [apply Z.div_pos; lia|]. apply Z.div_lt_upper_bound; lia.
Qed.
Lemma stores_finishK F :
  all_of (store_obls n res (map (fun p => (4 * fst p, snd p)) (store_list n dst cs qs F))) /\
  (forall r c, 0 <= r < C * N -> 0 <= c < K ->
     storesT n res (map (fun p => (4 * fst p, snd p)) (store_list n dst cs qs F)) (dst + (r * 1 + c * cs)) = Some (get 32 (r mod N) (F (r / N) c))) /\
  (forall a, (forall r c, 0 <= r < C * N -> 0 <= c < K -> a <> dst + (r * 1 + c * cs)) ->
     storesT n res (map (fun p => (4 * fst p, snd p)) (store_list n dst cs qs F)) a = res a).
Proof.
  destruct Hqs as [ND IN].
  assert (Hal : forall a v j, In (a, v) (store_list n dst cs qs F) -> 0 <= j < N ->
    exists rc c, 0 <= rc < C /\ 0 <= c < K /\ a + j = dst + ((N * rc + j) * 1 + c * cs) /\ 0 <= N * rc + j < C * N).
  { intros a v j Hin Hj. unfold store_list in Hin. apply in_map_iff in Hin. destruct Hin as ([c rc] & E & Hin).
    cbn [fst snd] in E. injection E as <- <-. apply IN in Hin. exists rc, c. repeat split; try lia; nia. }
  destruct (stores_ok n (store_list n dst cs qs F) res) as (S1 & S2 & S3).
  - intros a v j Hin Hj. destruct (Hal a v j Hin Hj) as (rc & c & H1 & H2 & -> & H3). rewrite Hold by assumption. discriminate.
  - unfold store_list. clear S1 S2 S3 || idtac.
    assert (G : forall l, NoDup l -> (forall q, In q l -> In q qs) ->
      ForallOrdPairs (fun p q : Z * reg => apart n (fst p) (fst q)) (map (fun q => (dst + (N * snd q + fst q * cs), F (snd q) (fst q))) l)).
    { induction l as [|[c rc] l IH]; intros NDl Hl; [constructor|]. cbn [map]. inversion NDl; subst. constructor.
      - apply Forall_forall. intros p Hp. apply in_map_iff in Hp. destruct Hp as ([c' rc'] & <- & Hp).
        intros i j Hi Hj. cbn [fst snd]. intros E.
        destruct (proj1 (IN c rc) (Hl _ (or_introl eq_refl))) as [Hc Hrc].
        destruct (proj1 (IN c' rc') (Hl _ (or_intror Hp))) as [Hc' Hrc'].
        destruct (Hinj (N * rc + i) c (N * rc' + j) c') as [E1 E2]; try lia; try nia.
        subst c'. assert (rc = rc') by nia. subst rc'. contradiction.
      - apply IH; [assumption|]. intros q Hq. apply Hl. now right. }
    apply G; [exact ND|tauto].
  - split; [exact S1|]. split.
    + intros r c Hr Hc. destruct (row_splitK r Hr) as (Q1 & Q2 & Q3).
      rewrite <- (S2 (dst + (N * (r / N) + c * cs)) (F (r / N) c) (r mod N)).
      * f_equal. lia.
      * unfold store_list. apply in_map_iff. exists (c, r / N). split; [reflexivity|]. apply IN. lia.
      * lia.
    + intros a Ha. apply S3. intros b v j Hin Hj E. destruct (Hal b v j Hin Hj) as (rc & c & H1 & H2 & H3 & H4).
      apply (Ha (N * rc + j) c H4 H2). lia.
Qed.
Lemma load_finishK rc c : 0 <= rc < C -> 0 <= c < K ->
  v_load n res (4 * (dst + (N * rc + c * cs))) <> None /\
  forall i, 0 <= i < N -> get 32 i (t_load n res (4 * (dst + (N * rc + c * cs)))) = wrapS 32 (old (N * rc + i) c).
Proof.
  intros Hrc Hc. apply (t_load_ok n res _ (fun j => old (N * rc + j) c)). intros j Hj.
  rewrite <- Hold by (try lia; nia). f_equal. lia.
Qed.
End FinishK.

(* the result of a kernel whose stores are those of F *)
Lemma stores_value C K dst cs res old qs F s V :
  1 <= C ->
  (forall r c r' c', 0 <= r < C * 4 -> 0 <= c < K -> 0 <= r' < C * 4 -> 0 <= c' < K ->
     r * 1 + c * cs = r' * 1 + c' * cs -> r = r' /\ c = c') ->
  (forall r c, 0 <= r < C * 4 -> 0 <= c < K -> res (dst + (r * 1 + c * cs)) = Some (old r c)) ->
  NoDup qs /\ (forall c rc, In (c, rc) qs <-> 0 <= c < K /\ 0 <= rc < C) ->
  as_dst s = storesT 4 res (map (fun p => (4 * fst p, snd p)) (store_list 4 dst cs qs F)) ->
  (forall rc c i, 0 <= rc < C -> 0 <= c < K -> 0 <= i < 4 -> get 32 i (F rc c) = V (4 * rc + i) c) ->
  (forall r c, 0 <= r < C * 4 -> 0 <= c < K -> as_dst s (dst + (r * 1 + c * cs)) = Some (V r c)) /\
  (forall a, (forall r c, 0 <= r < C * 4 -> 0 <= c < K -> a <> dst + (r * 1 + c * cs)) -> as_dst s a = res a).
Proof.
  intros HC Hinj Hold Hqs E HV. rewrite E.
  destruct (stores_finishK 4 C K dst cs res old ltac:(lia) HC Hinj Hold qs Hqs F) as (_ & S2 & S3). split; [|exact S3].
  intros r c Hr Hc. rewrite S2 by assumption. f_equal. change (Z.of_nat 4) with 4.
  assert (Q : 0 <= r / 4 < C) by lia. rewrite HV by lia. f_equal. lia.
Qed.

(* 8 bytes of a cell into half 0 *)
Lemma ld8D C sg b p run A a dc rc : holds_run (mk_side_fmt 4 2 CDepthMajor C sg) b p run A ->
  a = p + (dc * C + rc) * 8 -> 0 <= dc -> 2 * (dc + 1) <= run -> 0 <= rc < C ->
  load_cells b a 8 <> None /\ forall z x, isb (v_set8 z x 0 (t_cells b a 8)) 0 (cellD 4 2 C sg b p dc rc).
Proof.
  intros H -> Hd Hr Hrc.
  assert (G : forall j, 0 <= j < Z.of_nat 8 -> b (p + (dc * C + rc) * 8 + j) = Some (cellD 4 2 C sg b p dc rc j)).
  { intros j Hj. apply (cellD_ok 4 2 C sg b p run A ltac:(lia) ltac:(lia) H); lia. }
  destruct (t_cells_ok b _ 8 _ G) as [E1 E2]. split; [exact E1|]. intros z x. rewrite E2. apply isb_set8; [lia|].
  intros j Hj. apply (cellD_ok 4 2 C sg b p run A ltac:(lia) ltac:(lia) H); lia.
Qed.
(* two levels of depth of a depth-major cell, by element *)
Lemma mac_dm a xL xR Lh Rh fL fR c i : isb xL 0 fL -> isb xR 0 fR -> 0 <= i < 4 -> 0 <= c < 4 ->
  getU 16 (4 + i) Lh = getU 16 (4 + i) (v_movl xL 0) -> getU 16 (4 + c) Rh = getU 16 (4 + c) (v_movl xR 0) ->
  get 32 i (v_mlal16 (v_mlal16 a (v_movl xL 0) 0 (v_movl xR 0) c) Lh 1 Rh (4 + c)) =
  wrapS 32 (get 32 i a + (fL i * fR c + fL (4 + i) * fR (4 + c))).
Proof.
  intros HL HR Hi Hc EL ER. rewrite !g_mlal16 by lia. change (4 * 1 + i) with (4 + i). rewrite EL, ER.
  rewrite !gu_movl by lia. change (4 * 0 + i) with i. rewrite HL, HR, HL, HR by lia. rewrite wrapS_add_l by lia. f_equal. lia.
Qed.
Lemma cellD_mac A B X Y rc c rcc i dc f g : 0 <= i < 4 -> 0 <= c < 4 ->
  (forall j, 0 <= j < 8 -> f j = A (4 * rc + j mod 4) (2 * dc + j / 4)) ->
  (forall j, 0 <= j < 8 -> g j = B (4 * rcc + j mod 4) (2 * dc + j / 4)) ->
  X = 4 * rc + i -> Y = 4 * rcc + c ->
  f i * g c + f (4 + i) * g (4 + c) = sumZ (fun d => A X d * B Y d) (2 * dc) (2 * dc + 2).
Proof.
  intros Hi Hc Hf Hg -> ->. rewrite sumZ_2. rewrite !Hf, !Hg by lia.
  replace (i mod 4) with i by lia. replace (i / 4) with 0 by lia. replace ((4 + i) mod 4) with i by lia.
  replace ((4 + i) / 4) with 1 by lia. replace (c mod 4) with c by lia. replace (c / 4) with 0 by lia.
  replace ((4 + c) mod 4) with c by lia. replace ((4 + c) / 4) with 1 by lia. rewrite Z.add_0_r. reflexivity.
Qed.
(* 4 dwords of the destination *)
Lemma ldW C K dst cs res old a rc c : 1 <= C ->
  (forall r c, 0 <= r < C * 4 -> 0 <= c < K -> res (dst + (r * 1 + c * cs)) = Some (old r c)) ->
  a = 4 * (dst + (4 * rc + c * cs)) -> 0 <= rc < C -> 0 <= c < K ->
  v_load 4 res a <> None /\ forall i, 0 <= i < 4 -> get 32 i (t_load 4 res a) = wrapS 32 (old (4 * rc + i) c).
Proof.
  intros HC Hold -> Hrc Hc. apply (t_load_ok 4 res _ (fun j => old (4 * rc + j) c)). intros j Hj.
  rewrite <- Hold by lia. f_equal. lia.
Qed.

(* 16 bytes of a width-major cell, from byte o on *)
Definition is16 (x : reg) (f : Z -> Z) : Prop := forall j, 0 <= j < 16 -> getU 8 j x = f j.
Lemma is16_isb x f : is16 x f -> isb x 0 f /\ isb x 1 (fun j => f (8 + j)).
Proof. intros H. split; intros j Hj; rewrite H by lia; reflexivity. Qed.
Lemma ld16W cw cd C sg b p run A a dc rc o : 0 < cw -> 0 < cd -> holds_run (mk_side_fmt cw cd CWidthMajor C sg) b p run A ->
  a = p + (dc * C + rc) * (cw * cd) + o -> 0 <= o -> o + 16 <= cw * cd -> 0 <= dc -> cd * (dc + 1) <= run -> 0 <= rc < C ->
  load_cells b a 16 <> None /\ is16 (vec_of 16 8 (t_cells b a 16)) (fun j => cellW cw cd C sg b p dc rc (o + j)).
Proof.
  intros Hcw Hcd H -> Ho Ho2 Hd Hr Hrc.
  assert (G : forall j, 0 <= j < Z.of_nat 16 ->
    b (p + (dc * C + rc) * (cw * cd) + o + j) = Some (cellW cw cd C sg b p dc rc (o + j)) /\ 0 <= cellW cw cd C sg b p dc rc (o + j) < 256).
  { intros j Hj. destruct (cellW_ok cw cd C sg b p run A ltac:(lia) ltac:(lia) H dc rc (o + j)) as (E & Hx & _); try lia.
    rewrite <- Z.add_assoc. now split. }
  destruct (t_cells_ok b _ 16 (fun j => cellW cw cd C sg b p dc rc (o + j)) (fun j Hj => proj1 (G j Hj))) as [E1 E2].
  split; [exact E1|]. intros j Hj. rewrite E2.
  unfold vec_of. rewrite getU_vpack by lia. unfold bytes_of. rewrite (nth_map_seq (fun j => cellW cw cd C sg b p dc rc (o + j))) by lia. apply wrapU_byte. apply G. lia.
Qed.
Lemma ld8W cw cd C sg b p run A a dc rc o h : 0 < cw -> 0 < cd -> holds_run (mk_side_fmt cw cd CWidthMajor C sg) b p run A ->
  a = p + (dc * C + rc) * (cw * cd) + o -> 0 <= o -> o + 8 <= cw * cd -> 0 <= dc -> cd * (dc + 1) <= run -> 0 <= rc < C ->
  h = 0 \/ h = 1 ->
  load_cells b a 8 <> None /\ forall z x, isb (v_set8 z x h (t_cells b a 8)) h (fun j => cellW cw cd C sg b p dc rc (o + j)).
Proof.
  intros Hcw Hcd H -> Ho Ho2 Hd Hr Hrc Hh.
  assert (G : forall j, 0 <= j < Z.of_nat 8 ->
    b (p + (dc * C + rc) * (cw * cd) + o + j) = Some (cellW cw cd C sg b p dc rc (o + j)) /\ 0 <= cellW cw cd C sg b p dc rc (o + j) < 256).
  { intros j Hj. destruct (cellW_ok cw cd C sg b p run A ltac:(lia) ltac:(lia) H dc rc (o + j)) as (E & Hx & _); try lia.
    rewrite <- Z.add_assoc. now split. }
  destruct (t_cells_ok b _ 8 (fun j => cellW cw cd C sg b p dc rc (o + j)) (fun j Hj => proj1 (G j Hj))) as [E1 E2].
  split; [exact E1|]. intros z x. rewrite E2. apply isb_set8; [exact Hh|]. intros j Hj. apply G. lia.
Qed.
