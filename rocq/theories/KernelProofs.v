From Verif Require Import Base BaseLemmas CommonModel CommonProofs PackModel PackProofs PackBlock PackSimdModel PackSimdProofs PackSimdProofs2 PackProofs3 GemmSpec ComputeModel KernelSpec.

(* i = q*n + x decomposition of an index below cells*n *)
Lemma idx_decomp cells n r : 0 < n -> 0 <= r < cells * n ->
  exists q x, r = q * n + x /\ 0 <= q < cells /\ 0 <= x < n.
Proof.
  intros Hn Hr. exists (r / n), (r mod n).
  pose proof (Z.mod_pos_bound r n Hn). pose proof (Z.div_mod r n ltac:(lia)).
  split; [lia|]. split; [|lia]. split; [apply Z.div_pos; lia|apply Z.div_lt_upper_bound; lia].
Qed.

Section Ref.
Variables (m : ovf) (k : kernel_fmt) (lhs rhs : mem) (lp rp run : Z) (A B : Z -> Z -> Z).
Hypothesis Hk : kernel_fmt_ok k.
Hypothesis Hus : sf_signed (kf_lhs k) = false /\ sf_signed (kf_rhs k) = false.
Hypothesis Hrun : 0 <= run.
Hypothesis Hdiv : (kDepth k | run).
Hypothesis HA : holds_run (kf_lhs k) lhs lp run A.
Hypothesis HB : holds_run (kf_rhs k) rhs rp run B.
Hypothesis Hm : m = Wrap \/ 255 * 255 * run <= 2 ^ 31 - 1.

Let R := kRows k.
Let C := kCols k.
Let D := kDepth k.
Definition dotp (r c n : Z) : Z := sumZ (fun d => A r d * B c d) 0 n.

Lemma A_range r d : 0 <= r < R -> 0 <= d < run ->
  lhs (lp + run_index (kf_lhs k) r d) = Some (A r d) /\ 0 <= A r d <= 255.
Proof.
  intros Hr Hd. destruct (HA r d) as (x & E & B1 & V); [unfold sf_width; rewrite Z.mul_comm; exact Hr|exact Hd|].
  rewrite (proj1 Hus) in V. cbn in V. subst x. split; [exact E|lia].
Qed.
Lemma B_range c d : 0 <= c < C -> 0 <= d < run ->
  rhs (rp + run_index (kf_rhs k) c d) = Some (B c d) /\ 0 <= B c d <= 255.
Proof.
  intros Hr Hd. destruct (HB c d) as (x & E & B1 & V); [unfold sf_width; rewrite Z.mul_comm; exact Hr|exact Hd|].
  rewrite (proj2 Hus) in V. cbn in V. subst x. split; [exact E|lia].
Qed.
Lemma prod_range r c d : 0 <= r < R -> 0 <= c < C -> 0 <= d < run -> 0 <= A r d * B c d <= 65025.
Proof.
  intros Hr Hc Hd. destruct (A_range r d Hr Hd) as [_ H1]. destruct (B_range c d Hc Hd) as [_ H2]. nia.
Qed.
Lemma dotp_range r c n : 0 <= r < R -> 0 <= c < C -> 0 <= n <= run -> 0 <= dotp r c n <= 65025 * run.
Proof.
  intros Hr Hc Hn. unfold dotp.
  pose proof (sumZ_bound (fun d => A r d * B c d) 0 n 0 65025 ltac:(lia)) as Hb.
  destruct Hb as [H1 H2]; [intros i Hi; apply prod_range; lia|]. lia.
Qed.
Lemma dotp_ok r c n : 0 <= r < R -> 0 <= c < C -> 0 <= n <= run -> okZ m (dotp r c n).
Proof.
  intros Hr Hc Hn. pose proof (dotp_range r c n Hr Hc Hn). destruct Hm as [->|H1]; [left; reflexivity|right].
  unfold int_min, int_max. change (2 ^ (32 - 1)) with (2 ^ 31). lia.
Qed.

Definition AI (P : Z -> Z -> Z) (acc : mem) : Prop :=
  forall r c, 0 <= r < R -> 0 <= c < C -> acc (r + c * R) = Some (wrapS 32 (dotp r c (P r c))).
Lemma AI_ext P P' acc : (forall r c, 0 <= r < R -> 0 <= c < C -> P r c = P' r c) -> AI P acc -> AI P' acc.
Proof. intros E H r c Hr Hc. rewrite <- E by assumption. apply H; assumption. Qed.

Lemma RC_inj r c r' c' : 0 <= r < R -> 0 <= r' < R -> r + c * R = r' + c' * R -> r = r' /\ c = c'.
Proof. intros Hr Hr' E. destruct (divmod_unique c c' R r r'); lia. Qed.

(* P advanced to n on the rectangle [r0,r1)x[c0,c1) *)
Definition rectP (P : Z -> Z -> Z) (r0 r1 c0 c1 n : Z) : Z -> Z -> Z :=
  fun r c => if (r0 <=? r) && (r <? r1) && (c0 <=? c) && (c <? c1) then n else P r c.

(* innermost statement *)
Lemma step1 acc P dc rc cc di ri ci0 :
  0 <= rc < sf_cells (kf_lhs k) -> 0 <= cc < sf_cells (kf_rhs k) ->
  0 <= dc -> 0 <= di < D -> dc * D + di < run ->
  0 <= ri < sf_cw (kf_lhs k) -> 0 <= ci0 < sf_cw (kf_rhs k) ->
  let r := rc * sf_cw (kf_lhs k) + ri in
  let c := cc * sf_cw (kf_rhs k) + ci0 in
  P r c = dc * D + di -> AI P acc ->
  exists acc',
    (let* lo := OffsetIntoCell (kf_lhs k) ri di in
     let* ro := OffsetIntoCell (kf_rhs k) ci0 di in
     let* lv := rd lhs (lp + (dc * sf_cells (kf_lhs k) + rc) * sf_cw (kf_lhs k) * kDepth k + lo) in
     let* rv := rd rhs (rp + (dc * sf_cells (kf_rhs k) + cc) * sf_cw (kf_rhs k) * kDepth k + ro) in
     let a := (ri + rc * sf_cw (kf_lhs k)) + (ci0 + cc * sf_cw (kf_rhs k)) * kRows k in
     let* old := rd acc a in
     let* prod := norm m 32 (lv * rv) in
     let* new := norm m 32 (old + prod) in
     wr acc a new) = Some acc' /\
    AI (rectP P r (r + 1) c (c + 1) (dc * D + di + 1)) acc'.
Proof.
  intros Hrc Hcc Hdc Hdi Hrd Hri Hci r c HP HI.
  pose proof Hk as (K1&K2&K3&K4&K5).
  assert (Hr : 0 <= r < R).
  { unfold R, kRows, r. assert ((rc + 1) * sf_cw (kf_lhs k) <= sf_cells (kf_lhs k) * sf_cw (kf_lhs k))
      by (apply Z.mul_le_mono_nonneg_r; lia).
    assert (0 <= rc * sf_cw (kf_lhs k)) by (apply Z.mul_nonneg_nonneg; lia). lia. }
  assert (Hc : 0 <= c < C).
  { unfold C, kCols, c. assert ((cc + 1) * sf_cw (kf_rhs k) <= sf_cells (kf_rhs k) * sf_cw (kf_rhs k))
      by (apply Z.mul_le_mono_nonneg_r; lia).
    assert (0 <= cc * sf_cw (kf_rhs k)) by (apply Z.mul_nonneg_nonneg; lia). lia. }
  assert (Hdcd : 0 <= dc * D) by (apply Z.mul_nonneg_nonneg; lia).
  assert (Hdi' : 0 <= di < sf_cd (kf_rhs k)) by (rewrite <- K3; exact Hdi).
  rewrite (OffsetIntoCell_off (kf_lhs k) ri di K1). cbn [bind].
  rewrite (OffsetIntoCell_off (kf_rhs k) ci0 di K2). cbn [bind].
  destruct (A_range r (dc * D + di) Hr ltac:(lia)) as [EA RA].
  destruct (B_range c (dc * D + di) Hc ltac:(lia)) as [EB RB].
  rewrite run_index_ci in EA, EB. unfold r, c, D in EA, EB.
  change (kDepth k) with (sf_cd (kf_lhs k)) in EA at 1. rewrite ci_cell in EA by assumption.
  assert (ED : kDepth k = sf_cd (kf_rhs k)) by exact K3.
  rewrite ED in EB at 1. rewrite ci_cell in EB by assumption.
  fold r in EA. fold c in EB.
  unfold rd at 1.
  replace (lp + (dc * sf_cells (kf_lhs k) + rc) * sf_cw (kf_lhs k) * kDepth k + off (kf_lhs k) ri di)
    with (lp + ((dc * sf_cells (kf_lhs k) + rc) * sf_cellsize (kf_lhs k) + off (kf_lhs k) ri di))
    by (unfold sf_cellsize, kDepth; ring).
  rewrite EA. cbn [bind]. unfold rd at 1.
  replace (rp + (dc * sf_cells (kf_rhs k) + cc) * sf_cw (kf_rhs k) * kDepth k + off (kf_rhs k) ci0 di)
    with (rp + ((dc * sf_cells (kf_rhs k) + cc) * sf_cellsize (kf_rhs k) + off (kf_rhs k) ci0 di))
    by (rewrite ED; unfold sf_cellsize; ring).
  rewrite EB. cbn [bind]. cbv zeta.
  replace (ri + rc * sf_cw (kf_lhs k) + (ci0 + cc * sf_cw (kf_rhs k)) * kRows k) with (r + c * R)
    by (unfold r, c, R; ring).
  unfold rd. rewrite (HI r c Hr Hc). cbn [bind]. rewrite HP.
  fold D. set (d := dc * D + di) in *.
  rewrite (norm_fits m 32 (A r d * B c d)) by
    (try lia; unfold int_min, int_max; change (2 ^ (32 - 1)) with 2147483648; nia).
  cbn [bind]. rewrite norm_acc1.
  - cbn [bind]. assert (Hx := HI r c Hr Hc). erewrite wr_ok by exact Hx.
    eexists. split; [reflexivity|]. intros r' c' Hr' Hc'. unfold rectP.
    destruct (Z.eq_dec r' r) as [->|Hnr]; [destruct (Z.eq_dec c' c) as [->|Hnc]|].
    + rewrite upd_same. replace ((r <=? r) && (r <? r + 1) && (c <=? c) && (c <? c + 1)) with true by lia.
      do 2 f_equal. unfold dotp. rewrite sumZ_last by lia. reflexivity.
    + rewrite upd_other by (intros E; apply RC_inj in E; lia).
      replace ((r <=? r) && (r <? r + 1) && (c <=? c') && (c' <? c + 1)) with false by lia.
      apply HI; assumption.
    + rewrite upd_other by (intros E; apply RC_inj in E; lia).
      replace ((r <=? r') && (r' <? r + 1) && (c <=? c') && (c' <? c + 1)) with false by lia.
      apply HI; assumption.
  - apply dotp_ok; lia.
  - replace (dotp r c d + A r d * B c d) with (dotp r c (d + 1))
      by (unfold dotp; rewrite sumZ_last by lia; reflexivity).
    apply dotp_ok; lia.
Qed.

Definition inner (dc rc cc di ri ci0 : Z) (acc : mem) : option mem :=
    (let* lo := OffsetIntoCell (kf_lhs k) ri di in
     let* ro := OffsetIntoCell (kf_rhs k) ci0 di in
     let* lv := rd lhs (lp + (dc * sf_cells (kf_lhs k) + rc) * sf_cw (kf_lhs k) * kDepth k + lo) in
     let* rv := rd rhs (rp + (dc * sf_cells (kf_rhs k) + cc) * sf_cw (kf_rhs k) * kDepth k + ro) in
     let a := (ri + rc * sf_cw (kf_lhs k)) + (ci0 + cc * sf_cw (kf_rhs k)) * kRows k in
     let* old := rd acc a in
     let* prod := norm m 32 (lv * rv) in
     let* new := norm m 32 (old + prod) in
     wr acc a new).

Ltac bdestruct_all :=
  repeat match goal with |- context [if ?b then _ else _] => destruct b eqn:? end.
Ltac rect_ext := intros r c Hr Hc; unfold rectP; bdestruct_all; try reflexivity; try lia.

(* one depth level of one pair of cells *)
Lemma step2 acc P dc rc cc di :
  0 <= rc < sf_cells (kf_lhs k) -> 0 <= cc < sf_cells (kf_rhs k) ->
  0 <= dc -> 0 <= di < D -> dc * D + di < run ->
  let r0 := rc * sf_cw (kf_lhs k) in
  let c0 := cc * sf_cw (kf_rhs k) in
  (forall r c, r0 <= r < r0 + sf_cw (kf_lhs k) -> c0 <= c < c0 + sf_cw (kf_rhs k) -> P r c = dc * D + di) ->
  AI P acc ->
  exists acc', for_step 0 (sf_cw (kf_lhs k)) 1 (fun ri acc =>
      for_step 0 (sf_cw (kf_rhs k)) 1 (fun ci0 acc => inner dc rc cc di ri ci0 acc) acc) acc = Some acc' /\
    AI (rectP P r0 (r0 + sf_cw (kf_lhs k)) c0 (c0 + sf_cw (kf_rhs k)) (dc * D + di + 1)) acc'.
Proof.
  intros Hrc Hcc Hdc Hdi Hrd r0 c0 HP HI.
  pose proof Hk as ((W1&_)&(W2&_)&_).
  apply (for_step_inv1 (fun i a => AI (rectP P r0 (r0 + i) c0 (c0 + sf_cw (kf_rhs k)) (dc * D + di + 1)) a)).
  - lia.
  - eapply AI_ext; [|exact HI]. rect_ext.
  - intros ri acc1 Hri HI1.
    destruct (for_step_inv1 (fun j a => AI (rectP
        (rectP P r0 (r0 + ri) c0 (c0 + sf_cw (kf_rhs k)) (dc * D + di + 1))
        (r0 + ri) (r0 + ri + 1) c0 (c0 + j) (dc * D + di + 1)) a) 0 (sf_cw (kf_rhs k))
      (fun ci0 acc => inner dc rc cc di ri ci0 acc) acc1) as (acc2 & E2 & HI2).
    + lia.
    + eapply AI_ext; [|exact HI1]. rect_ext.
    + intros j acc3 Hj HI3.
      match type of HI3 with AI ?Q _ =>
        destruct (fun h => step1 acc3 Q dc rc cc di ri j Hrc Hcc Hdc Hdi Hrd Hri Hj h HI3) as (acc4 & E4 & HI4) end.
      * fold r0 c0. unfold rectP. bdestruct_all; try lia. apply HP; lia.
      * exists acc4. split; [exact E4|]. eapply AI_ext; [|exact HI4]. fold r0 c0. rect_ext.
    + exists acc2. split; [exact E2|]. eapply AI_ext; [|exact HI2]. rect_ext.
Qed.

Lemma step3 acc P dc rc cc :
  0 <= rc < sf_cells (kf_lhs k) -> 0 <= cc < sf_cells (kf_rhs k) ->
  0 <= dc -> dc * D + D <= run ->
  let r0 := rc * sf_cw (kf_lhs k) in
  let c0 := cc * sf_cw (kf_rhs k) in
  (forall r c, r0 <= r < r0 + sf_cw (kf_lhs k) -> c0 <= c < c0 + sf_cw (kf_rhs k) -> P r c = dc * D) ->
  AI P acc ->
  exists acc', for_step 0 (kDepth k) 1 (fun di acc => for_step 0 (sf_cw (kf_lhs k)) 1 (fun ri acc =>
      for_step 0 (sf_cw (kf_rhs k)) 1 (fun ci0 acc => inner dc rc cc di ri ci0 acc) acc) acc) acc = Some acc' /\
    AI (rectP P r0 (r0 + sf_cw (kf_lhs k)) c0 (c0 + sf_cw (kf_rhs k)) (dc * D + D)) acc'.
Proof.
  intros Hrc Hcc Hdc Hrd r0 c0 HP HI. pose proof Hk as ((_&W1&_)&_).
  apply (for_step_inv1 (fun i a => AI (rectP P r0 (r0 + sf_cw (kf_lhs k)) c0 (c0 + sf_cw (kf_rhs k)) (dc * D + i)) a)).
  - exact (Z.lt_le_incl _ _ W1).
  - eapply AI_ext; [|exact HI]. intros r c Hr Hc. unfold rectP. bdestruct_all; [|reflexivity].
    rewrite HP by lia. lia.
  - intros di acc1 Hdi HI1.
    fold D in Hdi. assert (Hlt : dc * D + di < run) by lia.
    match type of HI1 with AI ?Q _ =>
      destruct (fun h => step2 acc1 Q dc rc cc di Hrc Hcc Hdc Hdi Hlt h HI1) as (acc2 & E2 & HI2) end.
    + intros r c Hr Hc. fold r0 c0 in Hr, Hc. unfold rectP. bdestruct_all; lia.
    + exists acc2. split; [exact E2|]. eapply AI_ext; [|exact HI2]. fold r0 c0. rect_ext.
Qed.

Lemma accumulate acc0 : AI (fun _ _ => 0) acc0 ->
  exists acc, for_step 0 (Z.quot run (kDepth k)) 1 (fun dc acc =>
      for_step 0 (sf_cells (kf_lhs k)) 1 (fun rc acc =>
        for_step 0 (sf_cells (kf_rhs k)) 1 (fun cc acc =>
          for_step 0 (kDepth k) 1 (fun di acc =>
            for_step 0 (sf_cw (kf_lhs k)) 1 (fun ri acc =>
              for_step 0 (sf_cw (kf_rhs k)) 1 (fun ci0 acc => inner dc rc cc di ri ci0 acc) acc) acc) acc) acc) acc) acc0
    = Some acc /\ AI (fun _ _ => run) acc.
Proof.
  intros HI0. pose proof Hk as ((W1&W2&W3&_)&(V1&V2&V3&_)&_).
  assert (HD : 0 < D) by exact W2.
  destruct Hdiv as [q Hq]. fold D in Hq. assert (Eq : Z.quot run (kDepth k) = q).
  { fold D. rewrite Hq. apply Z.quot_mul. lia. }
  assert (Hq0 : 0 <= q) by (destruct (Z.le_gt_cases 0 q); [assumption|nia]).
  rewrite Eq.
  destruct (for_step_inv1 (fun i a => AI (fun _ _ => i * D) a) 0 q
    (fun dc acc =>
      for_step 0 (sf_cells (kf_lhs k)) 1 (fun rc acc =>
        for_step 0 (sf_cells (kf_rhs k)) 1 (fun cc acc =>
          for_step 0 (kDepth k) 1 (fun di acc =>
            for_step 0 (sf_cw (kf_lhs k)) 1 (fun ri acc =>
              for_step 0 (sf_cw (kf_rhs k)) 1 (fun ci0 acc => inner dc rc cc di ri ci0 acc) acc) acc) acc) acc) acc)
    acc0) as (acc & E & HI).
  - lia.
  - eapply AI_ext; [|exact HI0]. intros; reflexivity.
  - intros dc acc1 Hdc HI1.
    assert (Hle : dc * D + D <= run).
    { rewrite Hq. replace (dc * D + D) with ((dc + 1) * D) by ring. apply Z.mul_le_mono_nonneg_r; lia. }
    destruct (for_step_inv1 (fun i a => AI (rectP (fun _ _ => dc * D) 0 (i * sf_cw (kf_lhs k)) 0 C (dc * D + D)) a)
      0 (sf_cells (kf_lhs k))
      (fun rc acc =>
        for_step 0 (sf_cells (kf_rhs k)) 1 (fun cc acc =>
          for_step 0 (kDepth k) 1 (fun di acc =>
            for_step 0 (sf_cw (kf_lhs k)) 1 (fun ri acc =>
              for_step 0 (sf_cw (kf_rhs k)) 1 (fun ci0 acc => inner dc rc cc di ri ci0 acc) acc) acc) acc) acc)
      acc1) as (acc2 & E2 & HI2).
    + lia.
    + eapply AI_ext; [|exact HI1]. rect_ext.
    + intros rc acc3 Hrc HI3.
      assert (Hrc2 : 0 <= rc * sf_cw (kf_lhs k)) by (apply Z.mul_nonneg_nonneg; lia).
      destruct (for_step_inv1 (fun j a => AI (rectP
          (rectP (fun _ _ => dc * D) 0 (rc * sf_cw (kf_lhs k)) 0 C (dc * D + D))
          (rc * sf_cw (kf_lhs k)) (rc * sf_cw (kf_lhs k) + sf_cw (kf_lhs k)) 0 (j * sf_cw (kf_rhs k)) (dc * D + D)) a)
        0 (sf_cells (kf_rhs k))
        (fun cc acc =>
          for_step 0 (kDepth k) 1 (fun di acc =>
            for_step 0 (sf_cw (kf_lhs k)) 1 (fun ri acc =>
              for_step 0 (sf_cw (kf_rhs k)) 1 (fun ci0 acc => inner dc rc cc di ri ci0 acc) acc) acc) acc)
        acc3) as (acc4 & E4 & HI4).
      * lia.
      * eapply AI_ext; [|exact HI3]. rect_ext.
      * intros cc acc5 Hcc HI5.
        assert (Hcc2 : 0 <= cc * sf_cw (kf_rhs k)) by (apply Z.mul_nonneg_nonneg; lia).
        assert (Hdc0 : 0 <= dc) by lia.
        match type of HI5 with AI ?Q _ =>
          destruct (fun h => step3 acc5 Q dc rc cc Hrc Hcc Hdc0 Hle h HI5) as (acc6 & E6 & HI6) end.
        -- intros r c Hr Hc. unfold rectP. bdestruct_all; lia.
        -- exists acc6. split; [exact E6|]. eapply AI_ext; [|exact HI6].
           replace ((cc + 1) * sf_cw (kf_rhs k)) with (cc * sf_cw (kf_rhs k) + sf_cw (kf_rhs k)) by ring.
           rect_ext.
      * exists acc4. split; [exact E4|]. eapply AI_ext; [|exact HI4].
        replace ((rc + 1) * sf_cw (kf_lhs k)) with (rc * sf_cw (kf_lhs k) + sf_cw (kf_lhs k)) by ring.
        replace (sf_cells (kf_rhs k) * sf_cw (kf_rhs k)) with C by (unfold C, kCols; ring).
        rect_ext.
    + exists acc2. split; [exact E2|]. eapply AI_ext; [|exact HI2].
      replace (sf_cells (kf_lhs k) * sf_cw (kf_lhs k)) with R by (unfold R, kRows; ring).
      intros r c Hr Hc. unfold rectP. bdestruct_all; lia.
  - exists acc. split; [exact E|]. rewrite <- Hq in HI. exact HI.
Qed.
End Ref.

(* with any strides, any run and no padding *)
Lemma reference_kernel_run m k : kernel_fmt_ok k ->
  sf_signed (kf_lhs k) = false -> sf_signed (kf_rhs k) = false ->
  forall result dst rs cs lhs lp rhs rp start run A B old,
    0 <= start -> 0 <= run -> (kDepth k | run) ->
    (forall r c r' c', 0 <= r < kRows k -> 0 <= c < kCols k -> 0 <= r' < kRows k -> 0 <= c' < kCols k ->
       r * rs + c * cs = r' * rs + c' * cs -> r = r' /\ c = c') ->
    holds_run (kf_lhs k) lhs lp run A ->
    holds_run (kf_rhs k) rhs rp run B ->
    (forall r c, 0 <= r < kRows k -> 0 <= c < kCols k ->
       result (dst + (r * rs + c * cs)) = Some (old r c)) ->
    (m = Wrap \/ (255 * 255 * run <= 2 ^ 31 - 1 /\
       (start = 0 \/ forall r c, 0 <= r < kRows k -> 0 <= c < kCols k ->
          Z.abs (old r c) + 255 * 255 * run <= 2 ^ 31 - 1))) ->
    exists result',
      ReferenceKernel_Run m k result dst rs cs lhs lp rhs rp start run = Some result' /\
      (forall r c, 0 <= r < kRows k -> 0 <= c < kCols k ->
         result' (dst + (r * rs + c * cs)) =
         Some (wrapS 32 ((if start =? 0 then 0 else old r c)
                         + sumZ (fun d => A r d * B c d) 0 run))) /\
      (forall a, (forall r c, 0 <= r < kRows k -> 0 <= c < kCols k -> a <> dst + (r * rs + c * cs)) ->
         result' a = result a).
Proof.
  intros Hk Hs1 Hs2.
  intros result dst rs cs lhs lp rhs rp start run A B old Hst Hrun Hdiv Hinj HA HB Hold Hm.
  pose proof (kRows_pos k Hk) as HR. pose proof (kCols_pos k Hk) as HC.
  assert (Hm1 : m = Wrap \/ 255 * 255 * run <= 2 ^ 31 - 1) by (destruct Hm as [?|[? _]]; auto).
  unfold ReferenceKernel_Run. cbv zeta.
  assert (HRC : 0 <= kRows k * kCols k) by nia.
  destruct (memset_spec (local_buf (kRows k * kCols k) (fun _ => 0)) 0 0 (kRows k * kCols k) HRC) as (acc0 & E0 & H0).
  { intros a Ha. unfold local_buf. replace ((0 <=? a) && (a <? kRows k * kCols k)) with true by lia. eauto. }
  rewrite E0. cbn [bind].
  destruct (accumulate m k lhs rhs lp rp run A B Hk (conj Hs1 Hs2) Hrun Hdiv HA HB Hm1 acc0) as (acc & E & HI).
  { intros r c Hr Hc. rewrite H0. assert (Hlt : 0 <= r + c * kRows k < kRows k * kCols k).
    { assert ((c + 1) * kRows k <= kCols k * kRows k) by (apply Z.mul_le_mono_nonneg_r; lia).
      assert (0 <= c * kRows k) by (apply Z.mul_nonneg_nonneg; lia). lia. }
    replace ((0 <=? r + c * kRows k) && (r + c * kRows k <? 0 + kRows k * kCols k)) with true by lia.
    unfold dotp. rewrite sumZ_empty by lia. reflexivity. }
  unfold inner in E. rewrite E. cbn [bind].
  set (S := fun r c => sumZ (fun d => A r d * B c d) 0 run) in *.
  set (new := fun r c => wrapS 32 ((if start =? 0 then 0 else old r c) + S r c)).
  set (I2 := fun (r c : Z) (res : mem) =>
    (forall r' c', 0 <= r' < kRows k -> 0 <= c' < kCols k ->
      res (dst + (r' * rs + c' * cs)) = Some (if (r' <? r) || ((r' =? r) && (c' <? c)) then new r' c' else old r' c')) /\
    (forall a, (forall r c, 0 <= r < kRows k -> 0 <= c < kCols k -> a <> dst + (r * rs + c * cs)) ->
         res a = result a)).
  match goal with |- exists result', for_step 0 ?n 1 ?bd ?s0 = _ /\ _ =>
    destruct (for_step_inv1 (fun r res => I2 r 0 res) 0 n bd s0) as (res & Er & HIr) end.
  - lia.
  - split; [|intros; reflexivity]. intros r' c' Hr' Hc'. rewrite Hold by assumption.
    replace ((r' <? 0) || ((r' =? 0) && (c' <? 0))) with false by lia. reflexivity.
  - intros r res Hr HIr.
    destruct (for_step_inv1 (fun c res => I2 r c res) 0 (kCols k) (fun c result =>
      let* v := rd acc (r + c * kRows k) in
      if start =? 0 then wr result (dst + (r * rs + c * cs)) v
      else
        let* old := rd result (dst + (r * rs + c * cs)) in
        let* new := norm m 32 (old + v) in
        wr result (dst + (r * rs + c * cs)) new) res) as (res1 & E1 & HI1).
    + lia.
    + exact HIr.
    + intros c res2 Hc [J1 J2]. unfold rd. rewrite (HI r c Hr Hc). cbn [bind].
      unfold dotp. fold (S r c).
      pose proof (J1 r c Hr Hc) as Hcell.
      replace ((r <? r) || (r =? r) && (c <? c)) with false in Hcell by lia.
      assert (Hres : (if start =? 0 then wr res2 (dst + (r * rs + c * cs)) (wrapS 32 (S r c))
        else let* old := res2 (dst + (r * rs + c * cs)) in
             let* new := norm m 32 (old + wrapS 32 (S r c)) in
             wr res2 (dst + (r * rs + c * cs)) new) = Some (upd res2 (dst + (r * rs + c * cs)) (new r c))).
      { unfold new. destruct (Z.eqb_spec start 0) as [Es|Es].
        - rewrite Z.add_0_l. eapply wr_ok. exact Hcell.
        - rewrite Hcell. cbn [bind].
          assert (Hn : norm m 32 (old r c + wrapS 32 (S r c)) = Some (wrapS 32 (old r c + S r c))).
          { destruct Hm as [->|[B1 [?|B2]]]; [|contradiction|].
            - cbn [norm]. rewrite wrapS_add_r by lia. reflexivity.
            - pose proof (B2 r c Hr Hc) as B3.
              pose proof (dotp_range k lhs rhs lp rp run A B (conj Hs1 Hs2) HA HB r c run Hr Hc ltac:(lia)) as B4.
              unfold dotp in B4. fold (S r c) in B4.
              rewrite (wrapS_small 32 (S r c)) by
                (try lia; unfold int_min, int_max; change (2 ^ (32 - 1)) with (2 ^ 31); lia).
              apply norm_ok. right. unfold int_min, int_max. change (2 ^ (32 - 1)) with (2 ^ 31). lia. }
          rewrite Hn. cbn [bind]. eapply wr_ok. exact Hcell. }
      exists (upd res2 (dst + (r * rs + c * cs)) (new r c)). split; [exact Hres|]. split.
      * intros r' c' Hr' Hc'.
        destruct (Z.eq_dec (r' * rs + c' * cs) (r * rs + c * cs)) as [Eq|Hne].
        -- destruct (Hinj r' c' r c Hr' Hc' Hr Hc Eq) as [-> ->]. rewrite upd_same.
           replace ((r <? r) || (r =? r) && (c <? c + 1)) with true by lia. reflexivity.
        -- rewrite upd_other by lia. rewrite J1 by assumption. f_equal.
           assert (Hne2 : ~ (r' = r /\ c' = c)) by (intros [-> ->]; apply Hne; reflexivity).
           destruct ((r' <? r) || (r' =? r) && (c' <? c)) eqn:X1,
             ((r' <? r) || (r' =? r) && (c' <? c + 1)) eqn:X2; try reflexivity; lia.
      * intros a Ha. rewrite upd_other by (apply Ha; assumption). apply J2, Ha.
    + exists res1. split; [exact E1|]. destruct HI1 as [J1 J2]. split; [|exact J2].
      intros r' c' Hr' Hc'. rewrite J1 by assumption. f_equal.
      destruct ((r' <? r) || (r' =? r) && (c' <? kCols k)) eqn:X1,
        ((r' <? r + 1) || (r' =? r + 1) && (c' <? 0)) eqn:X2; try reflexivity; lia.
  - exists res. split; [exact Er|]. destruct HIr as [J1 J2]. split; [|exact J2].
    intros r c Hr Hc. rewrite J1 by assumption.
    replace ((r <? kRows k) || (r =? kRows k) && (c <? 0)) with true by lia. reflexivity.
Qed.

Lemma run_bound f1 f2 b1 p1 b2 p2 run A B r c n : holds_run f1 b1 p1 run A -> holds_run f2 b2 p2 run B ->
  0 <= r < sf_width f1 -> 0 <= c < sf_width f2 -> 0 <= n <= run ->
  Z.abs (sumZ (fun d => A r d * B c d) 0 n) <= 255 * 255 * n.
Proof.
  intros HA HB Hr Hc Hn.
  pose proof (sumZ_bound (fun d => A r d * B c d) 0 n (-65025) 65025 ltac:(lia)) as Hb.
  destruct Hb as [H1 H2]; [|lia].
  intros i Hi. destruct (HA r i Hr ltac:(lia)) as (x & _ & Bx & <-).
  destruct (HB c i Hc ltac:(lia)) as (y & _ & By & <-).
  assert (G : forall s z, 0 <= z < 256 -> - 255 <= operand_value s z <= 255).
  { intros s z Hz. unfold operand_value. destruct s; [|lia].
    pose proof (wrapS_range 8 z ltac:(lia)) as Bz. unfold int_min, int_max in Bz. change (2 ^ (8 - 1)) with 128 in Bz. lia. }
  pose proof (G (sf_signed f1) x Bx). pose proof (G (sf_signed f2) y By). nia.
Qed.
Lemma reference_kernel_correct m k : kernel_fmt_ok k ->
  sf_signed (kf_lhs k) = false -> sf_signed (kf_rhs k) = false ->
  kernel_correct m (ReferenceKernel m k).
Proof.
  intros Hk Hs1 Hs2. unfold kernel_correct, kernel_correct_on, kernel_run_correct, ReferenceKernel. cbn [k_fmt k_run].
  intros result dst cs lhs lp rhs rp start run A B old Hst Hrun Hdiv Hinj HA HB Hold Hm.
  assert (Hreg : 0 < kf_reg k) by (destruct Hk as (_&_&_&?&_); assumption).
  pose proof (RoundUp_ge (kf_reg k) run Hreg) as Hru.
  assert (HA' : holds_run (kf_lhs k) lhs lp run A) by (intros w d Hw Hd; apply HA; lia).
  assert (HB' : holds_run (kf_rhs k) rhs rp run B) by (intros w d Hw Hd; apply HB; lia).
  destruct (reference_kernel_run m k Hk Hs1 Hs2 result dst 1 cs lhs lp rhs rp start run A B old) as (res & E & HV & HF);
    try assumption; try lia.
  { destruct Hm as [?|[H1 H2]]; [left; assumption|right]. split; [lia|].
    destruct H2 as [?|H2]; [left; assumption|right]. intros r c Hr Hc. pose proof (H2 r c Hr Hc). lia. }
  exists res. split; [exact E|]. split; [|exact HF]. intros r c Hr Hc. eexists. split; [apply HV; assumption|].
  split; [|intros; reflexivity].
  destruct Hm as [?|[H1 H2]]; [left; assumption|right].
  assert (Bd := run_bound _ _ _ _ _ _ _ _ _ r c run HA HB ltac:(unfold sf_width, kRows in *; lia) ltac:(unfold sf_width, kCols in *; lia) ltac:(lia)).
  assert (B2 : Z.abs ((if start =? 0 then 0 else old r c) + sumZ (fun d => A r d * B c d) 0 run) <=
    (if start =? 0 then 0 else Z.abs (old r c)) + 255 * 255 * RoundUp (kf_reg k) run) by (destruct (start =? 0); lia).
  rewrite wrapS_small; [exact B2|lia|]. unfold int_min, int_max. change (2 ^ (32 - 1)) with (2 ^ 31).
  destruct (Z.eqb_spec start 0) as [->|N0]; [lia|]. destruct H2 as [?|H2]; [contradiction|]. pose proof (H2 r c Hr Hc). lia.
Qed.

Lemma generic_packs m K : kernel_fmt_ok (k_fmt K) -> k_pack K = Pack -> packs_correct m K.
Proof.
  intros (K1&K2&K3&K4&K5) E. unfold packs_correct. rewrite E.
  split; apply Pack_correct; try assumption. rewrite <- K3. exact K5.
Qed.
Lemma sse_packs m K : kernel_fmt_ok (k_fmt K) -> k_pack K = sse_packer -> (8 | kf_reg (k_fmt K)) -> packs_correct m K.
Proof.
  intros (K1&K2&K3&K4&K5) E H8. unfold packs_correct. rewrite E.
  split; apply sse_packer_correct; try assumption. rewrite <- K3. exact K5.
Qed.
Lemma avx_packs m K : kernel_fmt_ok (k_fmt K) -> k_pack K = avx_packer -> (16 | kf_reg (k_fmt K)) -> packs_correct m K.
Proof.
  intros (K1&K2&K3&K4&K5) E H16. unfold packs_correct. rewrite E.
  split; apply avx_packer_correct; try assumption. rewrite <- K3. exact K5.
Qed.
Lemma neon_packs m K : kernel_fmt_ok (k_fmt K) -> k_pack K = neon_packer -> kf_reg (k_fmt K) = 16 -> packs_correct m K.
Proof.
  intros (K1&K2&K3&K4&K5) E E16. unfold packs_correct. rewrite E16 in *. rewrite E.
  split; apply neon_packer_correct; try assumption. rewrite <- K3. exact K5.
Qed.

(* a kernel that reads nothing behind the run can be used *)
Lemma correct_usable_on ok m K : kernel_correct_on ok m K -> kernel_usable_on ok m K.
Proof. intros H result dst cs lhs lp rhs rp start run A B old _. apply H. Qed.
Lemma correct_usable m K : kernel_correct m K -> kernel_usable m K.
Proof. apply correct_usable_on. Qed.
