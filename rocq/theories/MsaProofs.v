(* MsaProofs.v: lanes of the MSA instructions; blocks of instructions; the main loop *)
From Verif Require Import Base BaseLemmas CommonModel CommonProofs PackModel GemmSpec ComputeModel KernelSpec SimdModel SimdProofs
  X86Model X86Proofs X86Loop ArmModel ArmProofs ArmLoop MsaModel MsaKernels.

(* ------------------------------------------------------------------ *)
(* lanes *)
Lemma getU_16_of_8 i v : 0 <= i -> getU 16 i v = getU 8 (2 * i) v + 256 * getU 8 (2 * i + 1) v.
Proof.
  intros Hi. unfold getU, wrapU. change (2 ^ 16) with (256 * 256). change (2 ^ 8) with 256.
  rewrite Z.rem_mul_r by lia. f_equal; [f_equal; f_equal; lia|]. f_equal. f_equal.
  rewrite (Z.shiftr_div_pow2 v (16 * i)) by lia. rewrite (Z.shiftr_div_pow2 v (8 * (2 * i + 1))) by lia.
  change 256 with (2 ^ 8). rewrite Z.div_div by lia. rewrite <- Z.pow_add_r by lia. f_equal. f_equal. lia.
Qed.
Lemma ldi_zero : w_ldi 8 0 = 0.
Proof. vm_compute. reflexivity. Qed.
Lemma ldiw_zero : w_ldi 32 0 = 0.
Proof. vm_compute. reflexivity. Qed.
Lemma ldi_one i : 0 <= i < 8 -> get 16 i (w_ldi 16 1) = 1.
Proof. intros Hi. unfold w_ldi. rewrite get_vpack by (change (Z.of_nat (Z.to_nat (128 / 16))) with 8; lia). reflexivity. Qed.
Lemma gu_byte i v : 0 <= i -> wrapU 8 (get 8 i v) = getU 8 i v.
Proof. intros Hi. rewrite getU_get by lia. reflexivity. Qed.
Lemma gu_ilvr x i : 0 <= i < 8 -> getU 16 i (w_ilvr 0 x) = getU 8 i x.
Proof.
  intros Hi. rewrite getU_16_of_8 by lia. unfold w_ilvr. rewrite !getU_vpack by lia.
  replace (2 * i mod 2 =? 0) with true by lia. replace ((2 * i + 1) mod 2 =? 0) with false by lia.
  replace (2 * i / 2) with i by lia. rewrite get_0 by lia. rewrite gu_byte by lia. change (wrapU 8 0) with 0. lia.
Qed.
Lemma gu_ilvl x i : 0 <= i < 8 -> getU 16 i (w_ilvl 0 x) = getU 8 (8 + i) x.
Proof.
  intros Hi. rewrite getU_16_of_8 by lia. unfold w_ilvl. rewrite !getU_vpack by lia.
  replace (2 * i mod 2 =? 0) with true by lia. replace ((2 * i + 1) mod 2 =? 0) with false by lia.
  replace (2 * i / 2) with i by lia. rewrite get_0 by lia. rewrite gu_byte by lia. change (wrapU 8 0) with 0. lia.
Qed.
Lemma gu_splati a n i b : 0 <= i < 4 -> 0 <= n -> b = 0 \/ b = 1 -> getU 16 (2 * i + b) (w_splati a n) = getU 16 (2 * n + b) a.
Proof.
  intros Hi Hn Hb. rewrite !getU_get by (destruct Hb; lia). f_equal. unfold w_splati.
  rewrite get16_of_32 by (try assumption; lia). now apply get16_get32.
Qed.
Lemma g_dpadd_u d a b i : 0 <= i < 4 -> get 32 i (w_dpadd_u d a b) = wrapS 32 (get 32 i d
    + (getU 16 (2 * i) a * getU 16 (2 * i) b + getU 16 (2 * i + 1) a * getU 16 (2 * i + 1) b)).
Proof. intros Hi. unfold w_dpadd_u. now rewrite get_vpack by lia. Qed.
Lemma g_dpadd_s d a b i : 0 <= i < 4 -> get 32 i (w_dpadd_s d a b) = wrapS 32 (get 32 i d
    + (get 16 (2 * i) a * get 16 (2 * i) b + get 16 (2 * i + 1) a * get 16 (2 * i + 1) b)).
Proof. intros Hi. unfold w_dpadd_s. now rewrite get_vpack by lia. Qed.
Lemma g_dotp_s a b i : 0 <= i < 8 -> get 16 i (w_dotp_s a b) =
    wrapS 16 (get 8 (2 * i) a * get 8 (2 * i) b + get 8 (2 * i + 1) a * get 8 (2 * i + 1) b).
Proof. intros Hi. unfold w_dotp_s. now rewrite get_vpack by lia. Qed.
Lemma g_addv a b i : 0 <= i < 4 -> get 32 i (w_addv a b) = wrapS 32 (get 32 i a + get 32 i b).
Proof. intros Hi. unfold w_addv. now rewrite get_vpack by lia. Qed.
Lemma g_pckev a b i : 0 <= i < 4 -> get 32 i (w_pckev a b) = if i <? 2 then get 32 (2 * i) b else get 32 (2 * (i - 2)) a.
Proof. intros Hi. unfold w_pckev. rewrite get_vpack by lia. destruct (i <? 2); now apply wrapS_get. Qed.
Lemma get_32_of_64 i v : 0 <= i -> get 32 (2 * i) v = wrapS 32 (get 64 i v).
Proof.
  intros Hi. rewrite <- (wrapS_get 32 (2 * i) v) by lia. apply wrapS_ext; [lia|]. intros j Hj.
  rewrite !get_bits by lia. f_equal. lia.
Qed.
Lemma g_hadd_s a b i : 0 <= i < 2 -> get 32 (2 * i) (w_hadd_s a b) = wrapS 32 (get 32 (2 * i + 1) a + get 32 (2 * i) b).
Proof.
  intros Hi. rewrite get_32_of_64 by lia. unfold w_hadd_s. rewrite get_vpack by lia.
  rewrite (wrapS_small 64); [reflexivity|lia|].
  pose proof (get_range 32 (2 * i + 1) a ltac:(lia)). pose proof (get_range 32 (2 * i) b ltac:(lia)).
  unfold int_min, int_max in *. change (2 ^ (32 - 1)) with 2147483648 in *. change (2 ^ (64 - 1)) with 9223372036854775808. lia.
Qed.
(* horizontal sums: row i of four registers *)
Definition w_sum4 (a0 a1 a2 a3 : reg) : reg :=
  let h x := w_hadd_s x x in let p0 := w_pckev (h a1) (h a0) in let p1 := w_pckev (h a3) (h a2) in w_pckev (h p1) (h p0).
Lemma sum2 x j : 0 <= j < 2 -> get 32 (2 * j) (w_hadd_s x x) = wrapS 32 (get 32 (2 * j) x + get 32 (2 * j + 1) x).
Proof. intros Hj. rewrite g_hadd_s by lia. f_equal. lia. Qed.
Lemma pair_sum a0 a1 j : 0 <= j < 2 ->
  get 32 (2 * j) (w_hadd_s (w_pckev (w_hadd_s a1 a1) (w_hadd_s a0 a0)) (w_pckev (w_hadd_s a1 a1) (w_hadd_s a0 a0))) =
  let x := if j =? 0 then a0 else a1 in wrapS 32 (get 32 0 x + get 32 1 x + get 32 2 x + get 32 3 x).
Proof.
  intros Hj. rewrite sum2 by lia. rewrite !g_pckev by lia. cbv zeta.
  assert (G : forall x, wrapS 32 (wrapS 32 (get 32 0 x + get 32 1 x) + wrapS 32 (get 32 2 x + get 32 3 x)) =
    wrapS 32 (get 32 0 x + get 32 1 x + get 32 2 x + get 32 3 x)).
  { intros x. rewrite wrapS_add_l, wrapS_add_r by lia. f_equal. lia. }
  assert (S0 : forall x, get 32 0 (w_hadd_s x x) = wrapS 32 (get 32 0 x + get 32 1 x)) by (intros x; apply (sum2 x 0); lia).
  assert (S1 : forall x, get 32 2 (w_hadd_s x x) = wrapS 32 (get 32 2 x + get 32 3 x)) by (intros x; apply (sum2 x 1); lia).
  assert (j = 0 \/ j = 1) as [-> | ->] by lia;
    cbn [Z.mul Pos.mul Z.add Pos.add Pos.succ Z.ltb Z.compare Pos.compare Pos.compare_cont Z.sub Z.opp Z.pos_sub Z.eqb Pos.eqb];
    rewrite S0, S1; apply G.
Qed.
Lemma sum4_ok a0 a1 a2 a3 i x : 0 <= i < 4 -> x = (match i with 0 => a0 | 1 => a1 | 2 => a2 | _ => a3 end) ->
  get 32 i (w_sum4 a0 a1 a2 a3) = wrapS 32 (get 32 0 x + get 32 1 x + get 32 2 x + get 32 3 x).
Proof.
  intros Hi ->. unfold w_sum4. cbv zeta. rewrite g_pckev by lia.
  destruct (Z.ltb_spec i 2) as [L | L]; rewrite pair_sum by lia; cbv zeta.
  - assert (i = 0 \/ i = 1) as [-> | ->] by lia; reflexivity.
  - assert (i = 2 \/ i = 3) as [-> | ->] by lia; reflexivity.
Qed.

(* ------------------------------------------------------------------ *)
(* k instructions *)
Fixpoint msteps (k : nat) (lhs rhs : mem) (prog : list mop) (pc : nat) (s : mstate) : option (nat * mstate) :=
  match k with
  | O => Some (pc, s)
  | S k => match nth_error prog pc with
           | None => None
           | Some i => let* ps := mstep lhs rhs i pc s in msteps k lhs rhs prog (fst ps) (snd ps)
           end
  end.
Lemma mexec_steps k f lhs rhs prog pc s pc' s' : msteps k lhs rhs prog pc s = Some (pc', s') ->
  mexec (k + f) lhs rhs prog pc s = mexec f lhs rhs prog pc' s'.
Proof.
  revert pc s. induction k as [|k IH]; intros pc s H.
  - cbn [msteps] in H. injection H as -> ->. reflexivity.
  - cbn [msteps] in H. cbn [Nat.add mexec]. destruct (nth_error prog pc) as [i|]; [|discriminate].
    destruct (mstep lhs rhs i pc s) as [ps|]; [|discriminate]. cbn [bind] in *. now apply IH.
Qed.
Lemma mexec_end f lhs rhs prog s : mexec f lhs rhs prog (length prog) s = Some s.
Proof.
  assert (E : nth_error prog (length prog) = None) by now apply nth_error_None.
  destruct f; cbn [mexec]; now rewrite E.
Qed.
Lemma msteps_app k1 k2 lhs rhs prog pc s pc' s' : msteps k1 lhs rhs prog pc s = Some (pc', s') ->
  msteps (k1 + k2) lhs rhs prog pc s = msteps k2 lhs rhs prog pc' s'.
Proof.
  revert pc s. induction k1 as [|k IH]; intros pc s H.
  - cbn [msteps] in H. injection H as -> ->. reflexivity.
  - cbn [Nat.add msteps] in *. destruct (nth_error prog pc); [|discriminate].
    destruct (mstep lhs rhs m pc s) as [ps|]; [|discriminate]. cbn [bind] in *. now apply IH.
Qed.

(* total version of one instruction, with the conditions under which it agrees *)
Definition mstepT (lhs rhs : mem) (i : mop) (pc : nat) (s : mstate) : list Prop * (nat * mstate) :=
  let g := ms_g s in
  let v := mwget s in
  let blk b := match b with MLhs => lhs | _ => rhs end in
  match i with
  | MLdB d b disp =>
      ([load_cells (blk b) (mget g b + disp) 16 <> None],
       (S pc, mwset s d (vec_of 16 8 (t_cells (blk b) (mget g b + disp) 16))))
  | MLdW d b disp =>
      ([v_load 4 (ms_dst s) (mget g b + disp) <> None], (S pc, mwset s d (t_load 4 (ms_dst s) (mget g b + disp))))
  | MStW r b disp =>
      ([v_store 4 (ms_dst s) (mget g b + disp) (v r) <> None],
       (S pc, mdset s (t_store 4 (ms_dst s) (mget g b + disp) (v r))))
  | MLdi d w imm => ([], (S pc, mwset s d (w_ldi w imm)))
  | MIlvr d a b => ([], (S pc, mwset s d (w_ilvr (v a) (v b))))
  | MIlvl d a b => ([], (S pc, mwset s d (w_ilvl (v a) (v b))))
  | MSplati d a n => ([], (S pc, mwset s d (w_splati (v a) n)))
  | MDpaddU d a b => ([], (S pc, mwset s d (w_dpadd_u (v d) (v a) (v b))))
  | MDpaddS d a b => ([], (S pc, mwset s d (w_dpadd_s (v d) (v a) (v b))))
  | MDotpS d a b => ([], (S pc, mwset s d (w_dotp_s (v a) (v b))))
  | MHadd d a b => ([], (S pc, mwset s d (w_hadd_s (v a) (v b))))
  | MPckev d a b => ([], (S pc, mwset s d (w_pckev (v a) (v b))))
  | MAddv d a b => ([], (S pc, mwset s d (w_addv (v a) (v b))))
  | MAdd d x y => ([], (S pc, mgset s d (mget g x + mget g y)))
  | MAddI d imm => ([], (S pc, mgset s d (mget g d + imm)))
  | MSll d x imm => ([], (S pc, mgset s d (mget g x * 2 ^ imm)))
  | MBranch z x t => ([], (if Bool.eqb z (mget g x =? 0) then t else S pc, s))
  | MJump t => ([], (t, s))
  end.
Lemma mstepT_sound lhs rhs i pc s : all_of (fst (mstepT lhs rhs i pc s)) ->
  mstep lhs rhs i pc s = Some (snd (mstepT lhs rhs i pc s)).
Proof.
  destruct i; cbn [mstepT mstep fst snd all_of]; cbv zeta; intros H; try reflexivity; destruct H as [H _].
  - unfold t_cells. destruct (load_cells _ _ _); [reflexivity|tauto].
  - unfold t_load. destruct (v_load _ _ _); [reflexivity|tauto].
  - unfold t_store. destruct (v_store _ _ _); [reflexivity|tauto].
Qed.
Fixpoint mrun (k : nat) (lhs rhs : mem) (prog : list mop) (pc : nat) (s : mstate) : list Prop * (nat * mstate) :=
  match k with
  | O => ([], (pc, s))
  | S k => match nth_error prog pc with
           | None => ([False], (pc, s))
           | Some i =>
               let '(o, (pc, s)) := mstepT lhs rhs i pc s in
               let '(os, r) := mrun k lhs rhs prog pc s in (o ++ os, r)
           end
  end.
Lemma mrun_sound k lhs rhs prog pc s os r : mrun k lhs rhs prog pc s = (os, r) -> all_of os ->
  msteps k lhs rhs prog pc s = Some r.
Proof.
  revert pc s os r. induction k as [|k IH]; intros pc s os r H A.
  - cbn in *. now injection H as _ <-.
  - cbn [mrun msteps] in *. destruct (nth_error prog pc) as [i|]; [|injection H as <- _; destruct A; tauto].
    destruct (mstepT lhs rhs i pc s) as [o [pc' s']] eqn:E.
    destruct (mrun k lhs rhs prog pc' s') as [os' r'] eqn:E'. injection H as <- <-.
    apply all_of_app in A. destruct A as [A1 A2].
    pose proof (mstepT_sound lhs rhs i pc s) as S. rewrite E in S. cbn [fst snd] in S. rewrite (S A1). cbn [bind fst snd].
    eapply IH; eassumption.
Qed.

(* ------------------------------------------------------------------ *)
(* the main loop: kd levels of depth per round, dc rounds done, m levels left;
   pc_of m is where the machine is; then start, loop and finish together *)
Section Loop.
Variables (lhs rhs : mem) (prog : list mop) (kd total : Z) (kL : nat) (pc_of : Z -> nat) (rel : Z -> Z -> mstate -> Prop).
Hypothesis BL : forall dc m s, rel dc m s -> 0 <= dc -> 0 < m -> kd * dc + m = total -> (kd | m) ->
  exists s', msteps kL lhs rhs prog (pc_of m) s = Some (pc_of (m - kd), s') /\ rel (dc + 1) (m - kd) s'.
Lemma msa_loop q : 0 < kd -> forall dc s, rel dc (kd * Z.of_nat q) s -> 0 <= dc -> kd * dc + kd * Z.of_nat q = total ->
  exists s', msteps (q * kL) lhs rhs prog (pc_of (kd * Z.of_nat q)) s = Some (pc_of 0, s') /\ rel (dc + Z.of_nat q) 0 s'.
Proof.
  intros Hkd. induction q as [|q IH]; intros dc s Hr Hd Ht.
  - exists s. cbn [Nat.mul msteps Z.of_nat] in *. rewrite Z.mul_0_r in *. rewrite Z.add_0_r. split; [reflexivity|exact Hr].
  - destruct (BL dc _ s Hr Hd ltac:(nia) Ht ltac:(exists (Z.of_nat (S q)); lia)) as (s1 & E1 & R1).
    replace (kd * Z.of_nat (S q) - kd) with (kd * Z.of_nat q) in E1, R1 by lia.
    destruct (IH (dc + 1) s1 R1 ltac:(lia) ltac:(lia)) as (s2 & E2 & R2).
    exists s2. split.
    + replace (S q * kL)%nat with (kL + q * kL)%nat by lia. rewrite (msteps_app _ _ _ _ _ _ _ _ _ E1). exact E2.
    + replace (dc + Z.of_nat (S q)) with (dc + 1 + Z.of_nat q) by lia. exact R2.
Qed.
Variables (k0 kF : nat) (P : mstate -> Prop).
Lemma msa_whole s0 fuel : 0 < kd -> 0 <= total -> (kd | total) ->
  (exists k s, (k <= k0)%nat /\ msteps k lhs rhs prog 0 s0 = Some (pc_of total, s) /\ rel 0 total s) ->
  (forall s, rel (total / kd) 0 s ->
     exists k s', (k <= kF)%nat /\ msteps k lhs rhs prog (pc_of 0) s = Some (length prog, s') /\ P s') ->
  (k0 + Z.to_nat (total / kd) * kL + kF <= fuel)%nat ->
  exists s', mexec fuel lhs rhs prog 0 s0 = Some s' /\ P s'.
Proof.
  intros Hkd Ht [q Hq] (k & s & Hk & E0 & R0) HF Hfu.
  assert (Ed : total / kd = q) by (rewrite Hq; apply Z.div_mul; lia). rewrite Ed in *.
  assert (Hq1 : 0 <= q) by nia.
  assert (Eq : total = kd * Z.of_nat (Z.to_nat q)) by (rewrite Z2Nat.id by lia; lia). rewrite Eq in E0, R0.
  destruct (msa_loop (Z.to_nat q) Hkd 0 s R0 ltac:(lia) ltac:(rewrite <- Eq; lia)) as (s1 & E1 & R1).
  replace (0 + Z.of_nat (Z.to_nat q)) with q in R1 by lia.
  destruct (HF s1 R1) as (k2 & s2 & Hk2 & E2 & Hp). exists s2. split; [|exact Hp].
  set (kl := (Z.to_nat q * kL)%nat) in *.
  replace fuel with (k + (kl + (k2 + (fuel - k - kl - k2))))%nat by lia.
  rewrite (mexec_steps _ _ _ _ _ _ _ _ _ E0), (mexec_steps _ _ _ _ _ _ _ _ _ E1), (mexec_steps _ _ _ _ _ _ _ _ _ E2).
  apply mexec_end.
Qed.
End Loop.
