From Coq Require Import Permutation.
From Verif Require Import Base BaseLemmas CommonModel CommonProofs PackModel PackProofs PackProofs2 PackProofs3 GemmSpec PackProofs4
  FixedPointModel ComputeModel KernelSpec ComputeProofs OutputModel OutputSpec OutputProofs UnpackModel UnpackProofs OutputSimdSpec GemmModel GemmContract GemmProofs GemmProofs2.

(* ------------------------------------------------------------------ *)
(* Row split *)
Fixpoint ranges (b : Z -> Z) (n0 : Z) (count : nat) : list (Z * Z) :=
  match count with
  | O => []
  | S c => (b n0, b (n0 + 1) - b n0) :: ranges b (n0 + 1) c
  end.
Lemma ranges_snoc b : forall count n0,
  ranges b n0 (S count) = ranges b n0 count ++ [(b (n0 + Z.of_nat count), b (n0 + Z.of_nat count + 1) - b (n0 + Z.of_nat count))].
Proof.
  induction count as [|c IH]; intros n0.
  - cbn [ranges app]. change (Z.of_nat 0) with 0. rewrite Z.add_0_r. reflexivity.
  - change (ranges b n0 (S (S c))) with ((b n0, b (n0 + 1) - b n0) :: ranges b (n0 + 1) (S c)). rewrite IH.
    cbn [ranges app]. replace (n0 + 1 + Z.of_nat c) with (n0 + Z.of_nat (S c)) by lia. reflexivity.
Qed.
Lemma ranges_nth b : forall count n0 i, (i < count)%nat ->
  nth_error (ranges b n0 count) i = Some (b (n0 + Z.of_nat i), b (n0 + Z.of_nat i + 1) - b (n0 + Z.of_nat i)).
Proof.
  induction count as [|c IH]; intros n0 i Hi; [lia|]. destruct i as [|i]; cbn [ranges nth_error].
  - change (Z.of_nat 0) with 0. rewrite Z.add_0_r. reflexivity.
  - rewrite IH by lia. replace (n0 + 1 + Z.of_nat i) with (n0 + Z.of_nat (S i)) by lia. reflexivity.
Qed.
Lemma ranges_length b : forall count n0, length (ranges b n0 count) = count.
Proof. induction count as [|c IH]; intros n0; cbn; [reflexivity|rewrite IH; reflexivity]. Qed.

Definition row_bound (kR rows tc n : Z) : Z := Z.min rows (RoundUp kR (rows * n / tc)).

Lemma RoundUp_mono x a b : 0 < x -> a <= b -> RoundUp x a <= RoundUp x b.
Proof. intros Hx H. apply RoundUp_le_mult; [exact Hx|apply RoundUp_div; exact Hx|]. pose proof (RoundUp_ge x b Hx). lia. Qed.
Lemma row_bound_mono kR rows tc n n' : 0 < kR -> 0 < rows -> 0 < tc -> n <= n' -> row_bound kR rows tc n <= row_bound kR rows tc n'.
Proof.
  intros HkR Hr Ht Hn. unfold row_bound. apply Z.min_le_compat_l. apply RoundUp_mono; [exact HkR|].
  apply Z.div_le_mono; [exact Ht|]. apply Z.mul_le_mono_nonneg_l; lia.
Qed.
Lemma row_bound_0 kR rows tc : 0 < kR -> 0 < rows -> 0 < tc -> row_bound kR rows tc 0 = 0.
Proof.
  intros. unfold row_bound. rewrite Z.mul_0_r, Z.div_0_l by lia. unfold RoundUp, RoundDown.
  rewrite Z.mod_small by lia. lia.
Qed.
Lemma row_bound_last kR rows tc : 0 < kR -> 0 < rows -> 0 < tc -> row_bound kR rows tc tc = rows.
Proof.
  intros. unfold row_bound. rewrite Z.div_mul by lia. pose proof (RoundUp_ge kR rows ltac:(lia)). lia.
Qed.

Lemma row_ranges_spec m kR rows tc : 0 < kR -> 0 < rows -> 0 < tc -> rows * tc <= 2 ^ 31 - 1 -> rows + kR <= 2 ^ 31 - 1 ->
  row_ranges m kR rows tc = Some (ranges (row_bound kR rows tc) 0 (Z.to_nat tc)).
Proof.
  intros HkR Hr Ht Hov Hov2. unfold row_ranges.
  match goal with |- bind (for_step 0 ?n 1 ?bd ?s0) _ = _ =>
    destruct (for_step_inv1 (fun n st => st = (row_bound kR rows tc n, ranges (row_bound kR rows tc) 0 (Z.to_nat n))) 0 n bd s0)
      as (st & E & HI) end.
  - lia.
  - rewrite row_bound_0 by assumption. reflexivity.
  - intros n st Hn ->. cbv beta iota.
    assert (Hp : 0 <= rows * (n + 1) <= rows * tc).
    { split; [apply Z.mul_nonneg_nonneg; lia|apply Z.mul_le_mono_nonneg_l; lia]. }
    rewrite norm_fits by (try lia; unfold int_min, int_max; cbn; lia). cbn [bind].
    assert (Hq : Z.quot (rows * (n + 1)) tc = rows * (n + 1) / tc) by (apply Z.quot_div_nonneg; lia).
    rewrite Hq.
    assert (Hle : 0 <= rows * (n + 1) / tc <= rows).
    { split; [apply Z.div_pos; lia|]. apply Z.div_le_upper_bound; [lia|]. lia. }
    rewrite RoundUp32_eq by lia. eexists. split; [reflexivity|].
    fold (row_bound kR rows tc (n + 1)). f_equal.
    replace (Z.to_nat (n + 1)) with (S (Z.to_nat n)) by lia. rewrite ranges_snoc. rewrite Z2Nat.id by lia. reflexivity.
  - rewrite E, HI. reflexivity.
Qed.

Lemma row_split_full m kR rows tc : 0 < kR -> 0 < rows -> 0 < tc -> rows * tc <= 2 ^ 31 - 1 -> rows + kR <= 2 ^ 31 - 1 ->
  exists l, row_ranges m kR rows tc = Some l /\ Z.of_nat (length l) = tc /\
    (forall i s n, nth_error l i = Some (s, n) ->
       0 <= s /\ 0 <= n <= rows / tc + kR /\ s + n <= rows /\ ((kR | s) \/ n = 0)) /\
    (forall r, 0 <= r < rows -> exists i s n, nth_error l i = Some (s, n) /\ s <= r < s + n /\
       forall i' s' n', nth_error l i' = Some (s', n') -> s' <= r < s' + n' -> i' = i).
Proof.
  intros HkR Hr Ht H1 H2. exists (ranges (row_bound kR rows tc) 0 (Z.to_nat tc)).
  split; [apply row_ranges_spec; assumption|]. rewrite ranges_length. split; [lia|].
  pose proof (row_bound_0 kR rows tc HkR Hr Ht) as B0. pose proof (row_bound_last kR rows tc HkR Hr Ht) as BL.
  assert (Hmono : forall a b, a <= b -> row_bound kR rows tc a <= row_bound kR rows tc b) by (intros; apply row_bound_mono; assumption).
  assert (Hnth : forall i s n, nth_error (ranges (row_bound kR rows tc) 0 (Z.to_nat tc)) i = Some (s, n) ->
     (i < Z.to_nat tc)%nat /\ s = row_bound kR rows tc (Z.of_nat i) /\ s + n = row_bound kR rows tc (Z.of_nat i + 1)).
  { intros i s n E. assert (Hi : (i < Z.to_nat tc)%nat).
    { rewrite <- (ranges_length (row_bound kR rows tc) (Z.to_nat tc) 0). apply nth_error_Some. congruence. }
    rewrite ranges_nth in E by exact Hi. injection E as <- <-. rewrite ?Z.add_0_l. split; [exact Hi|]. split; lia. }
  split.
  - intros i s n E. destruct (Hnth i s n E) as (Hi & Es & En).
    pose proof (Hmono 0 (Z.of_nat i) ltac:(lia)) as M1. pose proof (Hmono (Z.of_nat i + 1) tc ltac:(lia)) as M2.
    pose proof (Hmono (Z.of_nat i) (Z.of_nat i + 1) ltac:(lia)) as M3.
    split; [lia|]. split; [|split; [lia|]].
    + split; [lia|].
      assert (A : rows * (Z.of_nat i + 1) / tc <= rows * Z.of_nat i / tc + (rows / tc + 1)).
      { assert (rows * (Z.of_nat i + 1) / tc < rows * Z.of_nat i / tc + (rows / tc + 1) + 1); [|lia].
        apply Z.div_lt_upper_bound; [lia|].
        pose proof (Z.mul_succ_div_gt (rows * Z.of_nat i) tc ltac:(lia)). pose proof (Z.mul_succ_div_gt rows tc ltac:(lia)). lia. }
      unfold row_bound in Es, En. set (q := rows * Z.of_nat i / tc) in *. set (q' := rows * (Z.of_nat i + 1) / tc) in *.
      pose proof (RoundUp_ge kR q HkR) as U1. pose proof (RoundUp_ge kR q' HkR) as U2.
      assert (Hrt : 0 <= rows / tc) by (apply Z.div_pos; lia). set (rt := rows / tc) in *.
      clearbody q q' rt. clear - Es En A U1 U2 Hrt HkR. lia.
    + pose proof Es as Es0. unfold row_bound in Es. destruct (Z.le_gt_cases (RoundUp kR (rows * Z.of_nat i / tc)) rows).
      * left. rewrite Es. rewrite Z.min_r by lia. apply RoundUp_div. exact HkR.
      * right. assert (s = rows) by lia. lia.
  - intros r Hrr.
    assert (Hex : forall c : nat, (Z.of_nat c <= tc) -> r < row_bound kR rows tc (Z.of_nat c) ->
       exists i, (i < c)%nat /\ row_bound kR rows tc (Z.of_nat i) <= r < row_bound kR rows tc (Z.of_nat i + 1)).
    { induction c as [|c IH]; intros Hc Hlt; [change (Z.of_nat 0) with 0 in Hlt; lia|].
      destruct (Z.lt_ge_cases r (row_bound kR rows tc (Z.of_nat c))) as [Hl|Hg].
      - destruct (IH ltac:(lia) Hl) as (i & Hi & B). exists i. split; [lia|exact B].
      - exists c. split; [lia|]. replace (Z.of_nat c + 1) with (Z.of_nat (S c)) by lia. lia. }
    destruct (Hex (Z.to_nat tc)) as (i & Hi & B); [lia|rewrite Z2Nat.id by lia; lia|].
    exists i, (row_bound kR rows tc (Z.of_nat i)), (row_bound kR rows tc (Z.of_nat i + 1) - row_bound kR rows tc (Z.of_nat i)).
    split; [rewrite ranges_nth by exact Hi; reflexivity|]. split; [lia|].
    intros i' s' n' E' B'. destruct (Hnth i' s' n' E') as (Hi' & Es' & En').
    destruct (Nat.lt_trichotomy i' i) as [Hl|[He|Hg]]; [|exact He|]; exfalso.
    + pose proof (Hmono (Z.of_nat i' + 1) (Z.of_nat i) ltac:(lia)). lia.
    + pose proof (Hmono (Z.of_nat i + 1) (Z.of_nat i') ltac:(lia)). lia.
Qed.

(* ------------------------------------------------------------------ *)
(* Thread count *)
Lemma wrapU_le w x : 0 <= x -> wrapU w x <= x.
Proof.
  intros H. unfold wrapU. destruct (Z.le_gt_cases (2 ^ w) 0) as [Hle|Hgt].
  - destruct (Z.eq_dec (2 ^ w) 0) as [E|E]; [rewrite E, Zmod_0_r; lia|]. pose proof (Z.mod_neg_bound x (2 ^ w) ltac:(lia)). lia.
  - apply Z.mod_le; lia.
Qed.
Lemma wrapS_le w x : 0 < w -> 0 <= x -> wrapS w x <= x.
Proof.
  intros Hw H. unfold wrapS. pose proof (Z.pow_pos_nonneg 2 (w - 1) ltac:(lia) ltac:(lia)).
  assert (0 < 2 ^ w) by (apply Z.pow_pos_nonneg; lia).
  pose proof (Z.mod_le (x + 2 ^ (w - 1)) (2 ^ w) ltac:(lia) ltac:(lia)). lia.
Qed.
Lemma wrapU_ge0 w x : 0 < w -> 0 <= wrapU w x.
Proof. intros. unfold wrapU. apply Z.mod_pos_bound. apply Z.pow_pos_nonneg; lia. Qed.

Lemma HowManyThreads_spec m k hw mnt rows cols depth : 0 < kRows k -> 0 < rows -> 0 < cols -> 0 < depth ->
  threads_ok k hw mnt rows ->
  exists tc, HowManyThreads m (kRows k) hw mnt rows cols depth = Some tc /\ 1 <= tc /\
    (mnt = 1 -> tc = 1) /\ (mnt <> 1 -> tc <= (if mnt =? 0 then hw else mnt)) /\
    (1 < tc -> (tc - 1) * 16 < rows /\ (tc - 1) * kRows k < rows /\ tc * (64 * 1024) <= rows * cols * depth /\
       rows * tc <= 2 ^ 31 - 1 /\ rows + kRows k <= 2 ^ 31 - 1) /\
    (rows * cols * depth < 2 ^ 47 -> mnt <> 1 ->
       tc = Z.max 1 (Z.min (Z.min (if mnt =? 0 then hw else mnt) (CeilQuotient rows (Z.max 16 (kRows k))))
                           (rows * cols * depth / (64 * 1024)))).
Proof.
  intros HkR Hr Hcl Hdp Hth. unfold HowManyThreads. destruct (mnt =? 1) eqn:E1.
  { exists 1. split; [reflexivity|]. lia. }
  destruct Hth as [Hth|(Hm1 & Hm2 & Hm3)]; [lia|]. unfold GetHardwareConcurrency.
  set (mc := if mnt =? 0 then hw else mnt) in *.
  assert (Emr : (if kRows k >? 16 then kRows k else 16) = Z.max 16 (kRows k)) by (destruct (kRows k >? 16) eqn:?; lia).
  rewrite Emr. set (mr := Z.max 16 (kRows k)).
  assert (Hmr : 16 <= mr /\ kRows k <= mr /\ mr <= kRows k + 16) by (unfold mr; lia).
  assert (F : forall x, 0 <= x <= 2 ^ 31 - 1 -> int_min 32 <= x <= int_max 32) by (unfold int_min, int_max; cbn; lia).
  rewrite (norm_fits m 32 (rows + mr)) by (try lia; apply F; lia). cbn [bind].
  rewrite (norm_fits m 32 (rows + mr - 1)) by (try lia; apply F; lia). cbn [bind].
  rewrite Z.quot_div_nonneg by lia.
  assert (Hcq : 1 <= (rows + mr - 1) / mr) by (apply Z.div_le_lower_bound; lia).
  assert (Hcq2 : ((rows + mr - 1) / mr - 1) * mr < rows).
  { pose proof (Z.mul_div_le (rows + mr - 1) mr ltac:(lia)). lia. }
  assert (HceQ : CeilQuotient rows mr = (rows + mr - 1) / mr).
  { unfold CeilQuotient. rewrite Z.quot_div_nonneg by lia. reflexivity. }
  rewrite HceQ. set (q := (rows + mr - 1) / mr) in *.
  assert (Hq16 : q - 1 <= rows / 16).
  { apply Z.div_le_lower_bound; [lia|]. assert ((q - 1) * 16 <= (q - 1) * mr) by (apply Z.mul_le_mono_nonneg_l; lia). lia. }
  clear HceQ Emr. clearbody q mr.
  set (tc1 := Z.min mc q).
  set (cub := wrapU 64 (wrapU 64 (wrapU 64 rows * wrapU 64 cols) * wrapU 64 depth)).
  assert (Hrc : 0 < rows * cols) by (apply Z.mul_pos_pos; lia).
  assert (Hrcd : 0 < rows * cols * depth) by (apply Z.mul_pos_pos; lia).
  assert (Hcub : 0 <= cub <= rows * cols * depth).
  { unfold cub. split; [apply wrapU_ge0; lia|].
    pose proof (wrapU_le 64 rows ltac:(lia)). pose proof (wrapU_le 64 cols ltac:(lia)). pose proof (wrapU_le 64 depth ltac:(lia)).
    pose proof (wrapU_ge0 64 rows ltac:(lia)). pose proof (wrapU_ge0 64 cols ltac:(lia)). pose proof (wrapU_ge0 64 depth ltac:(lia)).
    assert (A1 : 0 <= wrapU 64 rows * wrapU 64 cols) by (apply Z.mul_nonneg_nonneg; lia).
    assert (A2 : wrapU 64 rows * wrapU 64 cols <= rows * cols) by (apply Z.mul_le_mono_nonneg; lia).
    pose proof (wrapU_le 64 _ A1). pose proof (wrapU_ge0 64 (wrapU 64 rows * wrapU 64 cols) ltac:(lia)).
    eapply Z.le_trans; [apply wrapU_le; apply Z.mul_nonneg_nonneg; lia|]. apply Z.mul_le_mono_nonneg; lia. }
  assert (Hexact : rows * cols * depth < 2 ^ 47 -> cub = rows * cols * depth).
  { intros Hlt. assert (rows * 1 <= rows * cols) by (apply Z.mul_le_mono_nonneg_l; lia).
    assert (1 * cols <= rows * cols) by (apply Z.mul_le_mono_nonneg_r; lia).
    assert (rows * cols * 1 <= rows * cols * depth) by (apply Z.mul_le_mono_nonneg_l; lia).
    assert (1 * depth <= rows * cols * depth) by (apply Z.mul_le_mono_nonneg_r; lia).
    unfold cub, wrapU. rewrite (Z.mod_small rows), (Z.mod_small cols), (Z.mod_small depth) by lia.
    rewrite (Z.mod_small (rows * cols)) by lia. apply Z.mod_small. lia. }
  clearbody cub.
  assert (HcubD : 0 <= cub / (64 * 1024)) by (apply Z.div_pos; lia).
  assert (HcubM : cub / (64 * 1024) * (64 * 1024) <= cub) by (pose proof (Z.mul_div_le cub (64 * 1024) ltac:(lia)); lia).
  set (w := wrapS 32 (cub / (64 * 1024))).
  assert (Hw : w <= cub / (64 * 1024)) by (apply wrapS_le; lia).
  assert (Hwe : cub < 2 ^ 47 -> w = cub / (64 * 1024)).
  { intros Hlt. apply wrapS_small; [lia|]. assert (cub / (64 * 1024) < 2 ^ 31) by (apply Z.div_lt_upper_bound; lia).
    unfold int_min, int_max. change (2 ^ (32 - 1)) with (2 ^ 31). lia. }
  clearbody w.
  set (tc := if tc1 >? 1 then (if Z.min tc1 w <? 1 then 1 else Z.min tc1 w) else tc1).
  assert (Htc : 1 <= tc <= Z.min mc q /\ (1 < tc -> tc <= w) /\ tc = Z.max 1 (Z.min (Z.min mc q) w)).
  { unfold tc, tc1. destruct (Z.min mc q >? 1) eqn:A; [|lia]. destruct (Z.min (Z.min mc q) w <? 1) eqn:B; lia. }
  assert (HA : rows * tc <= rows * Z.min mc (rows / 16 + 1)) by (apply Z.mul_le_mono_nonneg_l; lia).
  assert (HB : (tc - 1) * mr <= (q - 1) * mr) by (apply Z.mul_le_mono_nonneg_r; lia).
  assert (HC : (tc - 1) * 16 <= (tc - 1) * mr) by (apply Z.mul_le_mono_nonneg_l; lia).
  assert (HD : (tc - 1) * kRows k <= (tc - 1) * mr) by (apply Z.mul_le_mono_nonneg_l; lia).
  cbv zeta. fold tc. unfold guard. clearbody tc. replace (0 <? tc) with true by lia. replace (tc <=? mc) with true by lia.
  cbn [bind]. exists tc. split; [reflexivity|].
  destruct Htc as (T1 & T2 & T3).
  split; [lia|]. split; [lia|]. split; [lia|]. split; [lia|].
  intros Hlt _. rewrite T3. rewrite Hwe by lia. rewrite (Hexact Hlt). reflexivity.
Qed.

(* ------------------------------------------------------------------ *)
Lemma mapiM_cover ent0 (f : Z -> Z * Z -> option (list (Z * Z))) b c0 c1 : (forall n n', n <= n' -> b n <= b n') ->
  forall count n0,
  (forall n, n0 <= n < n0 + Z.of_nat count -> exists log, f n (b n, b (n + 1) - b n) = Some log /\
     covers ent0 (in_rect (b n) (b (n + 1)) c0 c1) log) ->
  exists logs, mapiM f n0 (ranges b n0 count) = Some logs /\ length logs = count /\
    covers ent0 (in_rect (b n0) (b (n0 + Z.of_nat count)) c0 c1) (concat logs).
Proof.
  intros Hb. induction count as [|c IH]; intros n0 Hf.
  - exists []. split; [reflexivity|]. split; [reflexivity|]. change (Z.of_nat 0) with 0. rewrite Z.add_0_r. apply covers_nil.
    unfold in_rect. intros; lia.
  - cbn [ranges mapiM]. destruct (Hf n0 ltac:(lia)) as (log & E & HC). rewrite E. cbn [bind].
    destruct (IH (n0 + 1)) as (logs & E2 & Hlen & HC2). { intros n Hn. apply Hf. lia. }
    rewrite E2. cbn [bind]. exists (log :: logs). split; [reflexivity|]. split; [cbn; rewrite Hlen; reflexivity|].
    cbn [concat]. eapply covers_ext; [|apply covers_app; [|exact HC|exact HC2]].
    + intros r c'. pose proof (Hb n0 (n0 + 1) ltac:(lia)). pose proof (Hb (n0 + 1) (n0 + 1 + Z.of_nat c) ltac:(lia)).
      replace (n0 + Z.of_nat (S c)) with (n0 + 1 + Z.of_nat c) by lia. unfold in_rect. lia.
    + intros r c'. unfold in_rect. lia.
Qed.

Section Multi.
Variables (ok : Z -> Z -> Prop) (m : ovf) (K : kernel) (lhs rhs : operand) (result : matrix_map) (lo ro : vec) (p : list stage).
Variables (L R : Z -> Z -> Z) (LO RO : Z -> Z) (out : Z -> Z -> Z).
Let k := k_fmt K.
Hypothesis Hk : kernel_fmt_ok k.
Hypothesis HK : kernel_usable_on ok m K.
Hypothesis HKp : packs_correct m K.
Hypothesis Hok0 : ok 0 0.
Hypothesis HP : gemm_problem m K (op_mem lhs) (op_map lhs) (op_mem rhs) (op_map rhs) result lo ro p L R LO RO out.
Let rows := mm_rows result.
Let cols := mm_cols result.
Let depth := mm_cols (op_map lhs).
Hypothesis Hok : forall r c d, 0 <= r < rows -> 0 <= c < cols -> 0 <= d < depth -> ok (L r d - sf_zp (kf_lhs k)) (R d c - sf_zp (kf_rhs k)).
Definition flat (phases : list (list (list (Z * Z)))) : list (Z * Z) := concat (map (@concat (Z * Z)) phases).

Theorem MultiThreadGemm_spec t hw mnt sc scs : tuning_ok t -> cols <= rows -> threads_ok k hw mnt rows ->
  exists phases, MultiThreadGemm m K t hw mnt sc scs lhs rhs result lo ro p = Some phases /\
    covers (ent out result) (in_rect 0 rows 0 cols) (flat phases).
Proof.
  intros Ht Hcr Hth. pose proof HP as [P1 P2 P3 P4 P5 P6 P7 P8 P9 P10 P11].
  destruct P4 as (Hr&Hc&Hd). fold rows in Hr. fold cols in Hc. fold depth in Hd.
  destruct (HowManyThreads_spec m k hw mnt rows cols depth (kRows_pos k Hk) Hr Hc Hd Hth) as (tc & Etc & Htc1 & _ & _ & Htc2 & _).
  unfold MultiThreadGemm. fold k rows cols depth.
  replace (depth =? mm_rows (op_map rhs)) with true by (unfold depth; lia).
  replace (0 <? rows) with true by lia. replace (0 <? cols) with true by lia. replace (0 <? depth) with true by lia.
  replace (cols <=? rows) with true by lia. unfold guard. cbn [bind]. rewrite Etc. cbn [bind].
  destruct (tc =? 1) eqn:E1.
  { destruct (SingleThreadGemm_spec ok m K lhs rhs result lo ro p L R LO RO out Hk HK HKp Hok0 HP Hok t sc Ht Hcr) as (log & El & Hl).
    rewrite El. cbn [bind]. eexists. split; [reflexivity|]. unfold flat. cbn [map concat app]. rewrite !app_nil_r. exact Hl. }
  replace (1 <? tc) with true by lia. cbn [bind].
  destruct (Htc2 ltac:(lia)) as (_ & _ & _ & Hov1 & Hov2).
  destruct (tuning_init k rows cols depth tc t Hk Hr Hc Hd ltac:(lia) Ht) as (bp & Ebp & Hbp). rewrite Ebp. cbn [bind].
  pose proof Hbp as (B1&B2&B3&_).
  pose proof (arith_255 ok m K lhs rhs result lo ro p L R LO RO out Hk HP Hok bp Hbp) as Ha.
  set (spR := GetSideBlockParams Rhs bp).
  match goal with |- exists ph, bind (for_step 0 ?n ?s ?bd ?s0) _ = _ /\ _ =>
    destruct (for_step_inv (fun c st => scratch_packed spR (fst st) /\ covers (ent out result) (in_rect 0 rows 0 c) (flat (snd st))) 0 n s bd s0)
      as (st & Est & HI) end.
  - lia.
  - lia.
  - cbn [fst snd]. split; [apply new_packed_scratch|]. apply covers_nil. unfold in_rect. intros; lia.
  - intros c [prhs0 phs] Hcc _ (I1&I2). cbn [fst snd] in I1, I2. cbv beta iota zeta.
    set (cs := Z.min (bp_l2_cols bp) (cols - c)).
    assert (Hcs : 0 < cs <= bp_l2_cols bp) by lia. assert (Hcs' : c + cs <= cols) by lia.
    destruct (mm_block_ok (op_map rhs) 0 c depth cs) as (rblk & Erb); [lia|unfold depth; lia|lia|unfold cols in *; lia|].
    rewrite Erb. cbn [bind].
    destruct (pack_rhs_block m K bp depth Hk Hbp Hd HKp Ha (op_mem rhs) (op_map rhs) R c cs rblk prhs0 (sc_pack_buf sc))
      as (prhs & Epr & Hpr); [exact P6|symmetry; exact P3|exact Erb|exact Hcs|exact I1|].
    fold k spR in Epr. rewrite Epr. cbn [bind].
    rewrite row_ranges_spec by (try lia; apply kRows_pos; exact Hk). cbn [bind].
    match goal with |- context [mapiM ?f 0 _] =>
      destruct (mapiM_cover (ent out result) f (row_bound (kRows k) rows tc) c (c + cs)) with (count := Z.to_nat tc) (n0 := 0) as (logs & El & _ & Hl) end.
    + intros. apply row_bound_mono; try lia. apply kRows_pos. exact Hk.
    + intros n Hn. cbv beta iota. rewrite Z2Nat.id in Hn by lia.
      set (b := row_bound (kRows k) rows tc).
      assert (Hb : forall x y, x <= y -> b x <= b y) by (intros; apply row_bound_mono; try lia; apply kRows_pos; exact Hk).
      assert (Hb0 : b 0 = 0) by (apply row_bound_0; try lia; apply kRows_pos; exact Hk).
      assert (HbL : b tc = rows) by (apply row_bound_last; try lia; apply kRows_pos; exact Hk).
      pose proof (Hb 0 n ltac:(lia)). pose proof (Hb n (n + 1) ltac:(lia)). pose proof (Hb (n + 1) tc ltac:(lia)).
      destruct (mm_block_ok (op_map lhs) (b n) 0 (b (n + 1) - b n) depth) as (lblk & Elb); [lia|unfold rows in *; lia|lia|unfold depth; lia|].
      rewrite Elb. cbn [bind].
      destruct (TaskRun_spec ok m K lhs rhs result lo ro p L R LO RO out Hk HK HKp Hok0 HP Hok bp (scs c n) (b n) (b (n + 1) - b n) lblk c cs prhs)
        as (log & Elog & Hlog); try assumption; try lia.
      exists log. split; [exact Elog|]. replace (b n + (b (n + 1) - b n)) with (b (n + 1)) in Hlog by lia. exact Hlog.
    + rewrite El. cbn [bind]. eexists. split; [reflexivity|]. cbn [fst snd]. split; [eapply is_packed_scratch; exact Hpr|].
      unfold flat. rewrite map_app, concat_app. cbn [map concat]. rewrite app_nil_r.
      rewrite Z2Nat.id in Hl by lia. rewrite Z.add_0_l in Hl. rewrite row_bound_last, row_bound_0 in Hl by (try lia; apply kRows_pos; exact Hk).
      eapply covers_ext; [|apply covers_app; [|exact I2|exact Hl]].
      * intros rr cc. unfold in_rect, cs. lia.
      * intros rr cc. unfold in_rect. lia.
  - rewrite Est. destruct st as [pr phs]. cbn [bind]. exists phs. split; [reflexivity|]. apply HI.
Qed.
End Multi.

(* ------------------------------------------------------------------ *)
(* Transposition *)
Lemma tr_shape_pos sh u r c : entry_of (VMap (tr_shape sh) u) r c = entry_of (VMap sh u) c r.
Proof. destruct sh; reflexivity. Qed.
Lemma tr_vec_entry v r c : entry_of (tr_vec v) r c = entry_of v c r.
Proof. destruct v as [sh u|]; cbn [tr_vec]; [apply tr_shape_pos|reflexivity]. Qed.
Lemma tr_stage_at m s r c x : stage_at m (tr_stage s) r c x = stage_at m s c r x.
Proof.
  destruct s; cbn [tr_stage stage_at]; rewrite ?tr_shape_pos, ?tr_vec_entry; reflexivity.
Qed.
Lemma tr_pipe_at m p : forall r c x, pipe_at m (map tr_stage p) r c x = pipe_at m p c r x.
Proof.
  induction p as [|s t IH]; intros r c x; cbn [map pipe_at]; [reflexivity|].
  rewrite tr_stage_at. destruct (stage_at m s c r x); cbn [bind]; [apply IH|reflexivity].
Qed.
Lemma tr_pipe_ty T p : pipe_ty T (map tr_stage p) = pipe_ty T p.
Proof.
  induction p as [|s t IH]; [reflexivity|]. cbn [map pipe_ty]. rewrite IH.
  assert (E : stage_ty T (tr_stage s) = stage_ty T s) by (destruct s as [| | | | | | | | |[]| |]; reflexivity).
  rewrite E. destruct t; reflexivity.
Qed.
Lemma tr_entry_i32 v r c : entry_i32 v c r -> entry_i32 (tr_vec v) r c.
Proof. unfold entry_i32. intros H x. rewrite tr_vec_entry. apply H. Qed.
Lemma tr_stage_safe T s r c x : stage_safe T s c r x -> stage_safe T (tr_stage s) r c x.
Proof.
  destruct s; cbn [tr_stage stage_safe]; unfold entry_i32; try rewrite !tr_shape_pos; try rewrite !tr_vec_entry; auto.
Qed.
Lemma tr_pipe_safe T m p : forall r c x, pipe_safe T m p c r x -> pipe_safe T m (map tr_stage p) r c x.
Proof.
  induction p as [|s t IH]; intros r c x; cbn [map pipe_safe]; [auto|].
  intros (H1 & H2). split; [apply tr_stage_safe; exact H1|]. intros y E. rewrite tr_stage_at in E. apply IH. apply H2. exact E.
Qed.
Lemma tr_entry_addr M r c : entry_addr (tr_map M) r c = entry_addr M c r.
Proof. unfold entry_addr, tr_map. cbn. destruct (mm_order M); cbn; ring. Qed.
Lemma tr_mm_addr M r c : mm_addr (tr_map M) r c = mm_addr M c r.
Proof. rewrite !mm_addr_entry. apply tr_entry_addr. Qed.
Lemma tr_holds n input M g : holds_entries n input M g -> holds_entries n input (tr_map M) (fun r c => g c r).
Proof. intros H r c Hr Hc. rewrite tr_entry_addr. cbn in Hr, Hc. apply H; assumption. Qed.
Lemma tr_kind f f' : in_min f = in_min f' -> sf_kind f = FInt8Inputs -> sf_kind f' = FInt8Inputs.
Proof. unfold in_min. intros H E. rewrite E in H. destruct (sf_kind f'); [discriminate|discriminate|reflexivity]. Qed.
Lemma tr_holds_lhs f f' input M g : in_min f = in_min f' -> holds_rhs f input M g -> holds_lhs f' input (tr_map M) (fun r c => g c r).
Proof.
  intros E [H O]. split; [rewrite <- E; apply tr_holds; exact H|].
  intros Ek. cbn. rewrite O; [reflexivity|]. exact (tr_kind _ _ (eq_sym E) Ek).
Qed.
Lemma tr_holds_rhs f f' input M g : in_min f = in_min f' -> holds_lhs f input M g -> holds_rhs f' input (tr_map M) (fun r c => g c r).
Proof.
  intros E [H O]. split; [rewrite <- E; apply tr_holds; exact H|].
  intros Ek. cbn. rewrite O; [reflexivity|]. exact (tr_kind _ _ (eq_sym E) Ek).
Qed.
Lemma tr_product L R LO RO depth r c :
  offset_product (fun r d => R d r) (fun d c => L c d) RO LO depth r c = offset_product L R LO RO depth c r.
Proof. unfold offset_product. apply sumZ_ext. intros d _. ring. Qed.

Lemma tr_problem m K lmem lhs rmem rhs result lo ro p L R LO RO out :
  gemm_problem m K lmem lhs rmem rhs result lo ro p L R LO RO out ->
  gemm_problem m K rmem (tr_map rhs) lmem (tr_map lhs) (tr_map result) (tr_vec ro) (tr_vec lo) (map tr_stage p)
    (fun r d => R d r) (fun d c => L c d) RO LO (fun r c => out c r).
Proof.
  intros [P1 P2 P3 P4 P5 P6 P7 P8 P9 P10 P11 P12]. constructor; cbn [tr_map mm_rows mm_cols].
  - exact P2.
  - exact P1.
  - symmetry. exact P3.
  - rewrite <- P3. tauto.
  - exact (tr_holds_lhs _ _ _ _ _ P12 P6).
  - exact (tr_holds_rhs _ _ _ _ _ (eq_sym P12) P5).
  - destruct P8 as (A&B&C). split; [|split].
    + destruct ro as [sh u|]; cbn; [subst sh; reflexivity|exact I].
    + destruct ro; exact B.
    + intros i Hi. rewrite tr_vec_entry. apply C. exact Hi.
  - destruct P7 as (A&B&C). split; [|split].
    + destruct lo as [sh u|]; cbn; [subst sh; reflexivity|exact I].
    + destruct lo; exact B.
    + intros i Hi. rewrite tr_vec_entry. apply C. exact Hi.
  - rewrite <- P3. destruct P9 as [H|(Ml & Mr & H1 & H2 & H3 & H4 & H5)]; [left; exact H|right].
    exists Mr, Ml. rewrite (Z.mul_comm Mr Ml). auto.
  - intros r c Hr Hc. rewrite tr_pipe_at, tr_product, <- P3. apply P10; assumption.
  - destruct (k_out K) as [T|]; [|exact I]. destruct P11 as (V1 & V2 & V3 & V4). cbn [vector_safe]. rewrite tr_pipe_ty.
    split; [exact V1|]. split; [exact V3|]. split; [exact V2|]. intros r c Hr Hc. rewrite tr_product, <- P3.
    apply tr_pipe_safe. apply V4; assumption.
  - exact P12.
Qed.

Lemma tr_covers out result P log :
  covers (ent (fun r c => out c r) (tr_map result)) P log -> covers (ent out result) (fun r c => P c r) log.
Proof.
  intros (vis & E & N & HI). exists (map (fun q => (snd q, fst q)) vis). split; [|split].
  - rewrite map_map, E. apply map_ext. intros [r c]. cbn. unfold ent. rewrite tr_mm_addr. reflexivity.
  - apply FinFun.Injective_map_NoDup; [|exact N]. intros [a b] [c d] H. cbn in H. congruence.
  - intros r c. rewrite <- HI. split.
    + intros H. apply in_map_iff in H as ([a b] & Eq & Hin). cbn in Eq. injection Eq as -> ->. exact Hin.
    + intros H. apply in_map_iff. exists (c, r). auto.
Qed.

Theorem Dispatch_on_spec ok m K lhs rhs result lo ro p L R LO RO out t hw mnt sc scs :
  kernel_fmt_ok (k_fmt K) -> kernel_usable_on ok m K -> packs_correct m K -> ok 0 0 ->
  gemm_problem m K (op_mem lhs) (op_map lhs) (op_mem rhs) (op_map rhs) result lo ro p L R LO RO out ->
  (forall r c d, 0 <= r < mm_rows result -> 0 <= c < mm_cols result -> 0 <= d < mm_cols (op_map lhs) ->
     ok (L r d - sf_zp (kf_lhs (k_fmt K))) (R d c - sf_zp (kf_rhs (k_fmt K))) /\
     ok (R d c - sf_zp (kf_lhs (k_fmt K))) (L r d - sf_zp (kf_rhs (k_fmt K)))) ->
  tuning_ok t -> threads_ok (k_fmt K) hw mnt (Z.max (mm_rows result) (mm_cols result)) ->
  exists phases, DispatchGemmShape m K t hw mnt sc scs lhs rhs result lo ro p = Some phases /\
    covers (ent out result) (in_rect 0 (mm_rows result) 0 (mm_cols result)) (flat phases).
Proof.
  intros Hk HK HKp Hok0 HP Hok Ht Hth. pose proof HP as [P1 P2 P3 P4 P5 P6 P7 P8 P9 P10 P11]. destruct P4 as (Hr&Hc&Hd).
  unfold DispatchGemmShape, guard. cbv zeta.
  replace (mm_cols (op_map lhs) =? mm_rows (op_map rhs)) with true by lia. cbn [bind].
  replace ((mm_rows result =? 0) || (mm_cols result =? 0) || (mm_cols (op_map lhs) =? 0)) with false by lia.
  destruct (mm_rows result <? mm_cols result) eqn:El.
  - cbn [tr_operand tr_map op_map op_mem mm_rows mm_cols].
    replace (mm_rows (op_map rhs) =? mm_cols (op_map lhs)) with true by lia. cbn [bind].
    replace ((mm_cols result =? 0) || (mm_rows result =? 0) || (mm_rows (op_map rhs) =? 0)) with false by lia.
    replace (mm_cols result <? mm_rows result) with false by lia.
    destruct (MultiThreadGemm_spec ok m K (tr_operand rhs) (tr_operand lhs) (tr_map result) (tr_vec ro) (tr_vec lo) (map tr_stage p)
       (fun r d => R d r) (fun d c => L c d) RO LO (fun r c => out c r) Hk HK HKp Hok0 (tr_problem _ _ _ _ _ _ _ _ _ _ _ _ _ _ _ HP)) with (t := t) (hw := hw) (mnt := mnt) (sc := sc) (scs := scs)
       as (phases & E & HC).
    + intros r c d Hr' Hc' Hd'. cbn [tr_map tr_operand op_map mm_rows mm_cols] in Hr', Hc', Hd'. apply Hok; lia.
    + exact Ht.
    + cbn. lia.
    + cbn [tr_map mm_rows]. rewrite Z.max_r in Hth by lia. exact Hth.
    + exists phases. split; [exact E|]. apply tr_covers in HC. eapply covers_ext; [|exact HC].
      cbn [tr_map mm_rows mm_cols]. unfold in_rect. intros; lia.
  - rewrite Z.max_l in Hth by lia.
    apply (MultiThreadGemm_spec ok m K lhs rhs result lo ro p L R LO RO out Hk HK HKp Hok0 HP); try assumption; [|lia].
    intros r c d Hr' Hc' Hd'. apply Hok; assumption.
Qed.
Theorem Dispatch_spec m K lhs rhs result lo ro p L R LO RO out t hw mnt sc scs :
  kernel_fmt_ok (k_fmt K) -> kernel_usable m K -> packs_correct m K ->
  gemm_problem m K (op_mem lhs) (op_map lhs) (op_mem rhs) (op_map rhs) result lo ro p L R LO RO out ->
  tuning_ok t -> threads_ok (k_fmt K) hw mnt (Z.max (mm_rows result) (mm_cols result)) ->
  exists phases, DispatchGemmShape m K t hw mnt sc scs lhs rhs result lo ro p = Some phases /\
    covers (ent out result) (in_rect 0 (mm_rows result) 0 (mm_cols result)) (flat phases).
Proof.
  intros Hk HK HKp HP Ht Hth. apply (Dispatch_on_spec (fun _ _ => True) m K lhs rhs result lo ro p L R LO RO out); try assumption; auto.
Qed.
