From Verif Require Import Base BaseLemmas CommonModel CommonProofs PackModel PackSpec PackProofs PackProofs2.

Lemma memset_spec dst da v n :
  0 <= n -> (forall a, da <= a < da + n -> exists x, dst a = Some x) ->
  exists m', memset dst da v n = Some m' /\
    forall a, m' a = if (da <=? a) && (a <? da + n) then Some v else dst a.
Proof.
  intros Hn Hd. unfold memset.
  destruct (for_step_inv1 (fun i (m : mem) =>
    forall a, m a = if (da <=? a) && (a <? da + i) then Some v else dst a) 0 n
    (fun i m => wr m (da + i) v) dst) as (m' & E & HI).
  - lia.
  - intros a. replace ((da <=? a) && (a <? da + 0)) with false by lia. reflexivity.
  - intros i m Hi HI. assert (Hx : exists x, m (da + i) = Some x).
    { rewrite HI. destruct ((da <=? da + i) && (da + i <? da + i)); [eauto|apply Hd; lia]. }
    destruct Hx as [x Hx]. erewrite wr_ok by exact Hx.
    eexists. split; [reflexivity|]. intros a. unfold upd. rewrite HI.
    destruct (Z.eqb_spec a (da + i)) as [->|Hne].
    + replace ((da <=? da + i) && (da + i <? da + (i + 1))) with true by lia. reflexivity.
    + destruct ((da <=? a) && (a <? da + i)) eqn:E1, ((da <=? a) && (a <? da + (i + 1))) eqn:E2;
        try reflexivity; lia.
  - exists m'. split; [exact E|exact HI].
Qed.

Lemma memcpy_spec dst da src sa n :
  0 <= n -> (forall a, da <= a < da + n -> exists x, dst a = Some x) ->
  (forall i, 0 <= i < n -> exists x, src (sa + i) = Some x) ->
  exists m', memcpy dst da src sa n = Some m' /\
    forall a, m' a = if (da <=? a) && (a <? da + n) then src (sa + (a - da)) else dst a.
Proof.
  intros Hn Hd Hs. unfold memcpy.
  destruct (for_step_inv1 (fun i (m : mem) =>
    forall a, m a = if (da <=? a) && (a <? da + i) then src (sa + (a - da)) else dst a) 0 n
    (fun i m => let* v := rd src (sa + i) in wr m (da + i) v) dst) as (m' & E & HI).
  - lia.
  - intros a. replace ((da <=? a) && (a <? da + 0)) with false by lia. reflexivity.
  - intros i m Hi HI. destruct (Hs i Hi) as [v Hv]. unfold rd. rewrite Hv. cbn [bind].
    assert (Hx : exists x, m (da + i) = Some x).
    { rewrite HI. replace ((da <=? da + i) && (da + i <? da + i)) with false by lia. apply Hd; lia. }
    destruct Hx as [x Hx]. erewrite wr_ok by exact Hx.
    eexists. split; [reflexivity|]. intros a. unfold upd. rewrite HI.
    destruct (Z.eqb_spec a (da + i)) as [->|Hne].
    + replace ((da <=? da + i) && (da + i <? da + (i + 1))) with true by lia.
      rewrite <- Hv. f_equal. lia.
    + destruct ((da <=? a) && (a <? da + i)) eqn:E1, ((da <=? a) && (a <? da + (i + 1))) eqn:E2;
        try reflexivity; lia.
  - exists m'. split; [exact E|exact HI].
Qed.

(* rows of length [len] inside slots of length [slot] *)
Lemma slot_index x slot n i j : 0 < slot -> 0 <= i < slot -> 0 <= j -> j < n -> x = j * slot + i ->
  0 <= x < n * slot.
Proof. intros. subst x. assert ((j + 1) * slot <= n * slot) by (apply Z.mul_le_mono_nonneg_r; lia). nia. Qed.

Lemma fill_rows (buf0 : mem) (src : mem) (addr : Z -> Z) slot nslots n len v :
  0 < slot -> 0 <= n <= nslots -> 0 <= len <= slot ->
  (forall a, 0 <= a < nslots * slot -> buf0 a = Some v) ->
  (forall j i, 0 <= j < n -> 0 <= i < len -> exists x, src (addr j + i) = Some x) ->
  exists buf, for_step 0 n 1 (fun j m => memcpy m (j * slot) src (addr j) len) buf0 = Some buf /\
    forall j i, 0 <= j < nslots -> 0 <= i < slot ->
      buf (j * slot + i) = if (j <? n) && (i <? len) then src (addr j + i) else Some v.
Proof.
  intros Hs Hn Hl H0 Hsrc.
  destruct (for_step_inv1 (fun k (m : mem) =>
    forall j i, 0 <= j < nslots -> 0 <= i < slot ->
      m (j * slot + i) = if (j <? k) && (i <? len) then src (addr j + i) else Some v) 0 n
    (fun j m => memcpy m (j * slot) src (addr j) len) buf0) as (m' & E & HI).
  - lia.
  - intros j i Hj Hi. replace (j <? 0) with false by lia. cbn [andb].
    apply H0. eapply slot_index; [exact Hs|exact Hi| | |reflexivity]; lia.
  - intros k m Hk HI.
    destruct (memcpy_spec m (k * slot) src (addr k) len) as (m1 & E1 & H1).
    + lia.
    + intros a Ha. replace a with (k * slot + (a - k * slot)) by lia. rewrite HI by lia.
      replace (k <? k) with false by lia. cbn [andb]. eauto.
    + intros i Hi. apply Hsrc; lia.
    + exists m1. split; [exact E1|]. intros j i Hj Hi. rewrite H1.
      destruct (Z.eq_dec j k) as [->|Hne].
      * replace (k <? k + 1) with true by lia. cbn [andb].
        destruct (Z.ltb_spec i len).
        -- replace ((k * slot <=? k * slot + i) && (k * slot + i <? k * slot + len)) with true by lia.
           f_equal. lia.
        -- replace ((k * slot <=? k * slot + i) && (k * slot + i <? k * slot + len)) with false by lia.
           rewrite HI by lia. replace (k <? k) with false by lia. reflexivity.
      * assert (F : (k * slot <=? j * slot + i) && (j * slot + i <? k * slot + len) = false).
        { destruct (Z.lt_ge_cases j k).
          - assert ((j + 1) * slot <= k * slot) by (apply Z.mul_le_mono_nonneg_r; lia). lia.
          - assert ((k + 1) * slot <= j * slot) by (apply Z.mul_le_mono_nonneg_r; lia). lia. }
        rewrite F, HI by lia.
        destruct (Z.ltb_spec j k), (Z.ltb_spec j (k + 1)); try reflexivity; lia.
  - exists m'. split; [exact E|exact HI].
Qed.

Lemma MakeCompleteSrc_spec f kreg junk src (g : Z -> Z -> Z) :
  side_fmt_ok f -> 0 < kreg ->
  0 <= sm_width src <= sf_width f -> 0 <= sm_depth src <= kreg ->
  (forall w d, 0 <= w < sm_width src -> 0 <= d < sm_depth src -> sm_get src w d = Some (g w d)) ->
  exists c, MakeCompleteSrc f kreg junk src = Some c /\
    sm_order c = sm_order src /\ sm_width c = sf_width f /\ sm_depth c = kreg /\
    forall w d, 0 <= w < sf_width f -> 0 <= d < kreg ->
      sm_get c w d = Some (if (w <? sm_width src) && (d <? sm_depth src) then g w d else sf_zp f).
Proof.
  intros Hf Hreg Hw Hd Hg. destruct (f_pos f Hf) as (Fcw&Fcd&Fcells&Fw&Fcs).
  set (kW := sf_width f) in *.
  assert (Hnn : 0 <= kW * kreg) by nia.
  unfold MakeCompleteSrc. fold kW.
  destruct (memset_spec (local_buf (kW * kreg) junk) 0 (sf_zp f) (kW * kreg) Hnn) as (b0 & E0 & H0).
  { intros a Ha. unfold local_buf. replace ((0 <=? a) && (a <? kW * kreg)) with true by lia. eauto. }
  rewrite E0. cbn [bind].
  assert (H0' : forall a, 0 <= a < kW * kreg -> b0 a = Some (sf_zp f)).
  { intros a Ha. rewrite H0. replace ((0 <=? a) && (a <? 0 + kW * kreg)) with true by lia. reflexivity. }
  assert (Hget : forall w d, 0 <= w < sm_width src -> 0 <= d < sm_depth src ->
    sm_mem src (sm_addr src w d) = Some (g w d)) by exact Hg.
  destruct (sm_order src) eqn:Eo.
  - destruct (fill_rows b0 (sm_mem src) (fun w => sm_addr src w 0) kreg kW (sm_width src) (sm_depth src) (sf_zp f))
      as (b1 & E1 & H1); try assumption; try lia.
    { intros j i Hj Hi. replace (sm_addr src j 0 + i) with (sm_addr src j i).
      - eauto.
      - unfold sm_addr, sm_depth_stride. rewrite Eo. lia. }
    rewrite E1. cbn [bind]. eexists. split; [reflexivity|]. cbn. split; [try rewrite Eo; reflexivity|]. split; [reflexivity|]. split; [reflexivity|].
    intros w d Hw1 Hd1. unfold sm_get, rd, sm_addr at 1, sm_width_stride, sm_depth_stride. cbn.
    replace (w * kreg + d * 1) with (w * kreg + d) by lia. rewrite H1 by lia.
    destruct ((w <? sm_width src) && (d <? sm_depth src)) eqn:E; [|reflexivity].
    rewrite <- Hget by lia. f_equal. unfold sm_addr, sm_depth_stride. rewrite Eo. lia.
  - destruct (fill_rows b0 (sm_mem src) (fun d => sm_addr src 0 d) kW kreg (sm_depth src) (sm_width src) (sf_zp f))
      as (b1 & E1 & H1); try assumption; try lia.
    { intros a Ha. apply H0'. lia. }
    { intros j i Hj Hi. replace (sm_addr src 0 j + i) with (sm_addr src i j).
      - eauto.
      - unfold sm_addr, sm_width_stride. rewrite Eo. lia. }
    rewrite E1. cbn [bind]. eexists. split; [reflexivity|]. cbn. split; [try rewrite Eo; reflexivity|]. split; [reflexivity|]. split; [reflexivity|].
    intros w d Hw1 Hd1. unfold sm_get, rd, sm_addr at 1, sm_width_stride, sm_depth_stride. cbn.
    replace (w * 1 + d * kW) with (d * kW + w) by lia. rewrite H1 by lia.
    rewrite (andb_comm (w <? _)).
    destruct ((d <? sm_depth src) && (w <? sm_width src)) eqn:E; [|reflexivity].
    rewrite <- Hget by lia. f_equal. unfold sm_addr, sm_width_stride. rewrite Eo. lia.
Qed.

Lemma RoundUp_between kreg i n : 0 < kreg -> (kreg | i) -> i < n <= i + kreg -> RoundUp kreg n = i + kreg.
Proof.
  intros Hreg Hi Hn. destruct (RoundUp_spec kreg n Hreg) as [q [E B]]. destruct Hi as [a Ha]. subst i.
  rewrite E in *.
  assert (a < q) by (apply (Z.mul_lt_mono_pos_r kreg); lia).
  assert (q <= a + 1).
  { destruct (Z.le_gt_cases q (a + 1)); [assumption|].
    assert ((a + 2) * kreg <= q * kreg) by (apply Z.mul_le_mono_nonneg_r; lia). lia. }
  replace q with (a + 1) by lia. ring.
Qed.

Section PackSide3.
Variables (pk : packer) (m : ovf) (f : side_fmt) (kreg : Z) (junk : Z -> Z) (p : side_params) (src : side_map) (val : Z -> Z -> Z).
Hypothesis Hf : side_fmt_ok f.
Hypothesis Hreg : 0 < kreg.
Hypothesis Hcdreg : (sf_cd f | kreg).
Hypothesis Hp : sp_ok f kreg p.
Hypothesis Hval : forall w d, in_min f - sf_zp f <= val w d <= in_min f + 255 - sf_zp f.
Hypothesis Hpk : pack_correct m f kreg (pk m f kreg).
Hypothesis Hm : m = Wrap \/ 255 * sp_l2_depth p <= int_max 32.
Hypothesis Hord : sf_kind f = FInt8Inputs -> sm_order src = SWidthMajor.
Hypothesis Hsw : 0 < sm_width src <= sp_l2_width p.
Hypothesis Hsd : 0 < sm_depth src <= sp_l2_depth p.
Hypothesis Hsrc : forall w d, 0 <= w < sm_width src -> 0 <= d < sm_depth src ->
  sm_get src w d = Some (val w d + sf_zp f).
Hypothesis Hpad : forall w d, sm_width src <= w \/ sm_depth src <= d -> val w d = 0.

Lemma sm_block_ok w d bw bd : 0 <= w -> w + bw <= sm_width src -> 0 <= d -> d + bd <= sm_depth src ->
  exists b, sm_block src w d bw bd = Some b /\ sm_order b = sm_order src /\ sm_width b = bw /\ sm_depth b = bd /\
    forall w1 d1, 0 <= w1 < bw -> 0 <= d1 < bd ->
      sm_get b w1 d1 = Some (val (w + w1) (d + d1) + sf_zp f).
Proof.
  intros H1 H2 H3 H4. unfold sm_block, guard.
  replace (0 <=? w) with true by lia. replace (w + bw <=? sm_width src) with true by lia.
  replace (0 <=? d) with true by lia. replace (d + bd <=? sm_depth src) with true by lia.
  cbn [bind]. eexists. split; [reflexivity|]. cbn. split; [reflexivity|]. split; [reflexivity|]. split; [reflexivity|].
  intros w1 d1 Hw1 Hd1. rewrite <- Hsrc by lia. unfold sm_get, rd, sm_addr, sm_width_stride, sm_depth_stride. cbn.
  f_equal. destruct (sm_order src); ring.
Qed.

Definition in_run (sw w : Z) : bool := (sw <=? w) && (w <? sw + sf_width f).

(* Pack of a complete or completed block inside the run starting at (sw,d0),
   at depth d inside the run *)
Lemma Pack_in_run b P sw d0 d c :
  (sf_width f | sw) -> 0 <= sw -> sw + sf_width f <= sp_l2_width p ->
  (sp_l1_depth p | d0) -> 0 <= d0 -> (kreg | d) -> 0 <= d -> d + kreg <= sp_l1_depth p ->
  d0 + d + kreg <= sp_l2_depth p ->
  (forall w, 0 <= w < sp_l2_width p -> P w <= sp_l2_depth p) ->
  sm_order c = sm_order src -> sm_width c = sf_width f -> sm_depth c = kreg ->
  (forall w1 d1, 0 <= w1 < sf_width f -> 0 <= d1 < kreg ->
     sm_get c w1 d1 = Some (val (sw + w1) (d0 + d + d1) + sf_zp f)) ->
  pk_pos b = run_pos p sw d0 + sf_width f * d ->
  DI f p val (fun w => if in_run sw w then d0 + d else P w) (pk_data b) ->
  SI p val (fun w => if in_run sw w then d0 + d else P w) (pk_sums b) ->
  exists b', pk m f kreg c sw b = Some b' /\
    pk_pos b' = run_pos p sw d0 + sf_width f * (d + kreg) /\
    DI f p val (fun w => if in_run sw w then d0 + (d + kreg) else P w) (pk_data b') /\
    SI p val (fun w => if in_run sw w then d0 + (d + kreg) else P w) (pk_sums b').
Proof.
  intros Hdw Hsw0 HswW Hdd Hd0 Hdk Hd Hdl HdD HP Hco Hcw Hcd Hc Hpos HDI HSI.
  assert (Hcdd : (sf_cd f | d)) by (exact (Z.divide_trans _ _ _ Hcdreg Hdk)).
  destruct (Pack_spec pk m f kreg p val Hf Hreg Hcdreg Hp Hval Hpk Hm b
    (fun w => if in_run sw w then d0 + d else P w) sw (d0 + d) c) as (b' & E & HD & HS & Hpos').
  - lia.
  - lia.
  - lia.
  - lia.
  - intros w1 d1 Hw1 Hd1. rewrite <- Z.add_assoc.
    rewrite (packed_pos_run f kreg p Hp) by (try assumption; lia).
    rewrite Hpos, ci_shift by assumption. ring.
  - intros w Hw. destruct (in_run sw w); [lia|apply HP, Hw].
  - intros w Hw. unfold in_run. replace ((sw <=? w) && (w <? sw + sf_width f)) with true by lia. reflexivity.
  - rewrite Hco. exact Hord.
  - exact Hcw.
  - exact Hcd.
  - exact Hc.
  - exact HDI.
  - exact HSI.
  - exists b'. split; [exact E|]. split; [rewrite Hpos', Hpos; ring|].
    assert (EP : forall w, 0 <= w < sp_l2_width p ->
      (if (sw <=? w) && (w <? sw + sf_width f) then d0 + d + kreg else if in_run sw w then d0 + d else P w)
      = (if in_run sw w then d0 + (d + kreg) else P w)).
    { intros w Hw. unfold in_run. destruct ((sw <=? w) && (w <? sw + sf_width f)); lia. }
    split; [exact (DI_ext _ _ _ _ _ _ EP ltac:(eassumption))|exact (SI_ext _ _ _ _ _ EP ltac:(eassumption))].
Qed.

Lemma completed_block b sw ws d0 d ds :
  sm_order b = sm_order src -> sm_width b = ws -> sm_depth b = ds -> 0 <= ws <= sf_width f -> 0 <= ds <= kreg ->
  (ws = sf_width f \/ sw + ws = sm_width src) ->
  (ds = kreg \/ d0 + d + ds = sm_depth src) ->
  (forall w1 d1, 0 <= w1 < ws -> 0 <= d1 < ds ->
     sm_get b w1 d1 = Some (val (sw + w1) (d0 + d + d1) + sf_zp f)) ->
  exists c, MakeCompleteSrc f kreg junk b = Some c /\ sm_order c = sm_order src /\ sm_width c = sf_width f /\ sm_depth c = kreg /\
  (forall w1 d1, 0 <= w1 < sf_width f -> 0 <= d1 < kreg ->
     sm_get c w1 d1 = Some (val (sw + w1) (d0 + d + d1) + sf_zp f)).
Proof.
  intros Eo Ew Ed Hws Hds Hcw Hcd Hb.
  destruct (MakeCompleteSrc_spec f kreg junk b (fun w1 d1 => val (sw + w1) (d0 + d + d1) + sf_zp f))
    as (c & E & C0 & C1 & C2 & C3); try assumption; try lia.
  - intros; apply Hb; lia.
  - exists c. split; [exact E|]. split; [congruence|]. split; [exact C1|]. split; [exact C2|].
    intros w1 d1 Hw1 Hd1. rewrite C3 by lia.
    destruct ((w1 <? sm_width b) && (d1 <? sm_depth b)) eqn:Eb; [reflexivity|].
    rewrite Hpad by lia. reflexivity.
Qed.

Lemma PackRun_spec b P sw ws d0 ds :
  (sf_width f | sw) -> 0 <= sw -> sw + sf_width f <= sp_l2_width p ->
  0 < ws <= sf_width f -> sw + ws <= sm_width src ->
  (ws = sf_width f \/ sw + ws = sm_width src) ->
  (sp_l1_depth p | d0) -> 0 <= d0 -> 0 < ds <= sp_l1_depth p -> d0 + ds <= sm_depth src ->
  (ds = sp_l1_depth p \/ d0 + ds = sm_depth src) ->
  (forall w, 0 <= w < sp_l2_width p -> P w <= sp_l2_depth p) ->
  (forall w, 0 <= w < sp_l2_width p -> in_run sw w = true -> P w = d0) ->
  pk_pos b = run_pos p sw d0 ->
  DI f p val P (pk_data b) -> SI p val P (pk_sums b) ->
  exists b', PackRun pk m f kreg junk src sw ws d0 ds b = Some b' /\
    DI f p val (fun w => if in_run sw w then d0 + RoundUp kreg ds else P w) (pk_data b') /\
    SI p val (fun w => if in_run sw w then d0 + RoundUp kreg ds else P w) (pk_sums b').
Proof.
  intros Hdw Hsw0 HswW Hws HwsS Hwsp Hdd Hd0 Hds HdsS Hdsp HP HPr Hpos HDI HSI.
  destruct Hp as (P1&P2&P3&P4&P5&P6&P7&P8).
  assert (Hru : RoundUp kreg ds <= sp_l1_depth p) by (apply RoundUp_le_mult; [assumption..|lia]).
  assert (HruD : d0 + RoundUp kreg ds <= sp_l2_depth p).
  { assert (Hk0 : (kreg | d0)) by (exact (Z.divide_trans _ _ _ P5 Hdd)).
    destruct (RoundUp_spec kreg ds Hreg) as [q [E B]].
    assert (RoundUp kreg (d0 + ds) <= sp_l2_depth p) by (apply RoundUp_le_mult; [assumption..|lia]).
    assert (d0 + RoundUp kreg ds <= RoundUp kreg (d0 + ds)); [|lia].
    destruct Hk0 as [k0 Hk0]. destruct (RoundUp_spec kreg (d0 + ds) Hreg) as [q2 [E2 B2]].
    rewrite E, E2 in *. subst d0. replace (k0 * kreg + q * kreg) with ((k0 + q) * kreg) by ring.
    apply Z.mul_le_mono_nonneg_r; [lia|].
    assert ((k0 + q - 1) * kreg < q2 * kreg) by lia.
    assert (k0 + q - 1 < q2) by (apply (Z.mul_lt_mono_pos_r kreg); lia). lia. }
  set (I := fun (i : Z) (b : packed) =>
    pk_pos b = run_pos p sw d0 + sf_width f * RoundUp kreg i /\
    DI f p val (fun w => if in_run sw w then d0 + RoundUp kreg i else P w) (pk_data b) /\
    SI p val (fun w => if in_run sw w then d0 + RoundUp kreg i else P w) (pk_sums b)).
  assert (R0 : RoundUp kreg 0 = 0) by (apply RoundUp_mult; [assumption|apply Z.divide_0_r]).
  assert (HI0 : I 0 b).
  { unfold I. rewrite R0. split; [lia|].
    assert (EP : forall w, 0 <= w < sp_l2_width p -> P w = (if in_run sw w then d0 + 0 else P w)).
    { intros w Hw. destruct (in_run sw w) eqn:E; [|reflexivity]. rewrite HPr by assumption. lia. }
    split; [exact (DI_ext _ _ _ _ _ _ EP ltac:(eassumption))|exact (SI_ext _ _ _ _ _ EP ltac:(eassumption))]. }
  (* one block *)
  assert (Step : forall i n bb c, (kreg | i) -> 0 <= i -> i < n <= i + kreg -> n <= ds ->
    sm_order c = sm_order src -> sm_width c = sf_width f -> sm_depth c = kreg ->
    (forall w1 d1, 0 <= w1 < sf_width f -> 0 <= d1 < kreg ->
       sm_get c w1 d1 = Some (val (sw + w1) (d0 + i + d1) + sf_zp f)) ->
    I i bb -> exists b', pk m f kreg c sw bb = Some b' /\ I n b').
  { intros i n bb c Hki Hi Hin Hnds C0 C1 C2 C3 (J1&J2&J3).
    rewrite (RoundUp_mult kreg i) in J1, J2, J3 by assumption.
    assert (En : RoundUp kreg n = i + kreg) by (apply RoundUp_between; assumption).
    assert (Hle : i + kreg <= RoundUp kreg ds).
    { rewrite <- En. apply RoundUp_le_mult; [assumption|apply RoundUp_div; assumption|].
      pose proof (RoundUp_ge kreg ds Hreg). lia. }
    destruct (Pack_in_run bb P sw d0 i c) as (b' & E & K1 & K2 & K3); try assumption; try lia.
    exists b'. split; [exact E|]. unfold I. rewrite En. split; [exact K1|]. split; [exact K2|exact K3]. }
  assert (Fin : forall b', I ds b' ->
    DI f p val (fun w => if in_run sw w then d0 + RoundUp kreg ds else P w) (pk_data b') /\
    SI p val (fun w => if in_run sw w then d0 + RoundUp kreg ds else P w) (pk_sums b')).
  { intros b' (_&J2&J3). split; assumption. }
  unfold PackRun. cbv zeta.
  destruct (Z.eqb_spec ws (sf_width f)) as [Ews|Hnews].
  - set (rad := RoundDown kreg ds).
    pose proof (RoundDown_le kreg ds Hreg) as Hrad. fold rad in Hrad.
    pose proof (RoundDown_div kreg ds Hreg) as Hradd. fold rad in Hradd.
    assert (Hrad0 : 0 <= rad).
    { pose proof (RoundDown_greatest kreg ds 0 Hreg ltac:(lia)). unfold rad. lia. }
    assert (Hloop : exists b1, (if negb (rad =? 0) then
        for_step 0 rad kreg (fun d dst =>
          let* s := sm_block src sw (d0 + d) ws kreg in pk m f kreg s sw dst) b
        else Some b) = Some b1 /\ I rad b1).
    { destruct (Z.eqb_spec rad 0) as [E0|E0]; cbn [negb].
      - exists b. split; [reflexivity|]. rewrite E0. exact HI0.
      - apply (for_step_inv I); try lia; try exact HI0.
        intros i bb Hi Hki HIi. rewrite Z.sub_0_r in Hki.
        assert (Hik : i + kreg <= rad) by (apply mult_step; try assumption; lia).
        destruct (sm_block_ok sw (d0 + i) ws kreg) as (s & Es & S0 & S1 & S2 & S3); try lia.
        rewrite Es. cbn [bind]. rewrite Z.min_l by lia.
        apply (Step i (i + kreg) bb s); try assumption; try lia. rewrite <- Ews. exact S3. }
    destruct Hloop as (b1 & E1 & HI1). rewrite E1. cbn [bind].
    destruct (Z.ltb_spec rad ds) as [Hlt|Hge].
    + assert (Hend : d0 + ds = sm_depth src).
      { destruct Hdsp as [->|?]; [|assumption].
        exfalso. unfold rad in Hlt. unfold RoundDown in Hlt.
        rewrite (proj2 (Z.mod_divide _ kreg ltac:(lia)) P5) in Hlt. lia. }
      destruct (sm_block_ok sw (d0 + rad) ws (ds - rad)) as (s & Es & S0 & S1 & S2 & S3); try lia.
      rewrite Es. cbn [bind].
      destruct (completed_block s sw ws d0 rad (ds - rad)) as (c & Ec & C0 & C1 & C2 & C3); try assumption; try lia.
      rewrite Ec. cbn [bind].
      destruct (Step rad ds b1 c) as (b' & Eb & HIb); try assumption; try lia.
      exists b'. split; [exact Eb|]. apply Fin, HIb.
    + exists b1. split; [reflexivity|]. apply Fin. replace ds with rad by lia. exact HI1.
  - unfold guard. replace (ws <? sf_width f) with true by lia. cbn [bind].
    destruct (for_step_inv I 0 ds kreg (fun d dst =>
      let* s := sm_block src sw (d0 + d) ws (Z.min kreg (ds - d)) in
      let* c := MakeCompleteSrc f kreg junk s in
      pk m f kreg c sw dst) b) as (b' & Eb & HIb); try lia; try exact HI0.
    + intros i bb Hi Hki HIi. rewrite Z.sub_0_r in Hki.
      destruct (sm_block_ok sw (d0 + i) ws (Z.min kreg (ds - i))) as (s & Es & S0 & S1 & S2 & S3); try lia.
      rewrite Es. cbn [bind].
      destruct (completed_block s sw ws d0 i (Z.min kreg (ds - i))) as (c & Ec & C0 & C1 & C2 & C3);
        try assumption; try lia.
      { destruct (Z.le_gt_cases kreg (ds - i)); [left; lia|right].
        destruct Hdsp as [Hd1|?]; [|lia]. exfalso.
        assert (i + kreg <= ds) by (apply mult_step; [assumption|assumption|rewrite Hd1; assumption|lia]). lia. }
      rewrite Ec. cbn [bind].
      apply (Step i (Z.min (i + kreg) ds) bb c); try assumption; lia.
    + exists b'. split; [exact Eb|]. apply Fin, HIb.
Qed.

Lemma PackL1_spec b P sw ws d0 ds :
  (sf_width f | sw) -> 0 <= sw -> 0 < ws -> sw + ws <= sm_width src ->
  ((sf_width f | ws) \/ sw + ws = sm_width src) ->
  (sp_l1_depth p | d0) -> 0 <= d0 -> 0 < ds <= sp_l1_depth p -> d0 + ds <= sm_depth src ->
  (ds = sp_l1_depth p \/ d0 + ds = sm_depth src) ->
  (forall w, 0 <= w < sp_l2_width p -> P w <= sp_l2_depth p) ->
  (forall w, sw <= w < sw + RoundUp (sf_width f) ws -> P w = d0) ->
  DI f p val P (pk_data b) -> SI p val P (pk_sums b) ->
  d0 + RoundUp kreg ds <= sp_l2_depth p ->
  exists b', PackL1 pk m f kreg junk p src sw ws d0 ds b = Some b' /\
    DI f p val (fun w => if (sw <=? w) && (w <? sw + RoundUp (sf_width f) ws) then d0 + RoundUp kreg ds else P w) (pk_data b') /\
    SI p val (fun w => if (sw <=? w) && (w <? sw + RoundUp (sf_width f) ws) then d0 + RoundUp kreg ds else P w) (pk_sums b').
Proof.
  intros Hdw Hsw0 Hws HwsS Hwsp Hdd Hd0 Hds HdsS Hdsp HP HPr HDI HSI HruD.
  destruct (f_pos f Hf) as (Fcw&Fcd&Fcells&Fw&Fcs).
  assert (HW : sw + RoundUp (sf_width f) ws <= sp_l2_width p).
  { destruct Hp as (P1&P2&P3&P4&P5&P6&P7&P8).
    assert (RoundUp (sf_width f) ws <= sp_l2_width p - sw); [|lia].
    apply RoundUp_le_mult; [lia| |lia]. apply Z.divide_sub_r; assumption. }
  unfold PackL1. cbv zeta.
  apply (for_step_inv (fun i b =>
    DI f p val (fun w => if (sw <=? w) && (w <? sw + RoundUp (sf_width f) i) then d0 + RoundUp kreg ds else P w) (pk_data b) /\
    SI p val (fun w => if (sw <=? w) && (w <? sw + RoundUp (sf_width f) i) then d0 + RoundUp kreg ds else P w) (pk_sums b))).
  - lia.
  - lia.
  - rewrite (RoundUp_mult (sf_width f) 0) by (try apply Z.divide_0_r; lia).
    split; [eapply DI_ext|eapply SI_ext]; try eassumption;
      intros w Hw; cbv beta; replace ((sw <=? w) && (w <? sw + 0)) with false by lia; reflexivity.
  - intros i bb Hi Hki [J1 J2]. rewrite Z.sub_0_r in Hki.
    rewrite (RoundUp_mult (sf_width f) i) in J1, J2 by assumption.
    assert (Hle : i + sf_width f <= RoundUp (sf_width f) ws).
    { apply mult_step; [lia|assumption|apply RoundUp_div; lia|].
      pose proof (RoundUp_ge (sf_width f) ws Fw). lia. }
    destruct (PackRun_spec (seek_run p (sw + i) d0 bb)
      (fun w => if (sw <=? w) && (w <? sw + i) then d0 + RoundUp kreg ds else P w)
      (sw + i) (Z.min (sf_width f) (ws - i)) d0 ds) as (b' & E & K1 & K2);
      try assumption; try lia.
    + apply Z.divide_add_r; assumption.
    + destruct (Z.le_gt_cases (sf_width f) (ws - i)); [left; lia|right].
      destruct Hwsp as [Hd|?]; [|lia]. exfalso.
      assert (i + sf_width f <= ws) by (apply mult_step; [lia|assumption..|lia]). lia.
    + intros w Hw. destruct ((sw <=? w) && (w <? sw + i)); [lia|apply HP, Hw].
    + intros w Hw Hin. unfold in_run in Hin.
      replace ((sw <=? w) && (w <? sw + i)) with false by lia. apply HPr. lia.
    + reflexivity.
    + exists b'. split; [exact E|].
      assert (En : RoundUp (sf_width f) (Z.min (i + sf_width f) ws) = i + sf_width f)
        by (apply RoundUp_between; [lia|assumption|lia]).
      assert (EP : forall w, 0 <= w < sp_l2_width p ->
        (if in_run (sw + i) w then d0 + RoundUp kreg ds else
         if (sw <=? w) && (w <? sw + i) then d0 + RoundUp kreg ds else P w) =
        (if (sw <=? w) && (w <? sw + RoundUp (sf_width f) (Z.min (i + sf_width f) ws))
         then d0 + RoundUp kreg ds else P w)).
      { intros w Hw. rewrite En. unfold in_run.
        destruct ((sw + i <=? w) && (w <? sw + i + sf_width f)) eqn:E1,
          ((sw <=? w) && (w <? sw + i)) eqn:E2,
          ((sw <=? w) && (w <? sw + (i + sf_width f))) eqn:E3; try reflexivity; lia. }
      split; [exact (DI_ext _ _ _ _ _ _ EP ltac:(eassumption))|exact (SI_ext _ _ _ _ _ EP ltac:(eassumption))].
Qed.

Lemma PackL2_spec b :
  (forall a, 0 <= a < sp_l2_width p * sp_l2_depth p -> exists v, pk_data b a = Some v /\ 0 <= v < 256) ->
  (forall a, 0 <= a < sp_l2_width p -> exists v, pk_sums b a = Some v) ->
  exists b', PackL2 pk m f kreg junk p src b = Some b' /\
    (forall a, 0 <= a < sp_l2_width p * sp_l2_depth p -> exists v, pk_data b' a = Some v /\ 0 <= v < 256) /\
    (forall w d, 0 <= w < RoundUp (sf_width f) (sm_width src) -> 0 <= d < RoundUp kreg (sm_depth src) ->
       pk_data b' (packed_pos f p w d) = Some (byte (val w d))) /\
    (forall w, 0 <= w < sp_l2_width p ->
       pk_sums b' w = Some (wrapS 32 (sumZ (val w) 0 (sm_depth src)))).
Proof.
  intros HD HS.
  destruct (f_pos f Hf) as (Fcw&Fcd&Fcells&Fw&Fcs).
  set (kW := sf_width f) in *. set (W := sm_width src) in *. set (D := sm_depth src) in *.
  pose proof Hp as (P1&P2&P3&P4&P5&P6&P7&P8). fold kW in P7, P8.
  assert (HrW : RoundUp kW W <= sp_l2_width p) by (apply RoundUp_le_mult; [lia|assumption|lia]).
  assert (HrD : RoundUp kreg D <= sp_l2_depth p) by (apply RoundUp_le_mult; [lia|assumption|lia]).
  unfold PackL2.
  destruct (memset_spec (pk_sums b) 0 0 (sp_l2_width p)) as (s0 & Es & Hs0); [lia|intros; apply HS; lia|].
  rewrite Es. cbn [bind].
  set (PP := fun i w => if w <? RoundUp kW W then RoundUp kreg i else 0).
  assert (PPle : forall i w, i <= D -> 0 <= i -> PP i w <= sp_l2_depth p).
  { intros i w Hi Hi0. unfold PP. destruct (w <? RoundUp kW W); [|lia].
    transitivity (RoundUp kreg D); [|lia].
    apply RoundUp_le_mult; [lia|apply RoundUp_div; lia|]. pose proof (RoundUp_ge kreg D Hreg). lia. }
  destruct (for_step_inv (fun i b => DI f p val (PP i) (pk_data b) /\ SI p val (PP i) (pk_sums b)) 0 D (sp_l1_depth p)
    (fun d dst =>
      let ds := Z.min (sp_l1_depth p) (D - d) in
      for_step 0 W (sp_l1_width p) (fun w dst =>
        let ws := Z.min (sp_l1_width p) (W - w) in
        PackL1 pk m f kreg junk p src w ws d ds dst) dst)
    (mk_packed (pk_data b) s0 (pk_pos b) (pk_behind b))) as (b' & E & K1 & K2).
  - lia.
  - lia.
  - assert (EP : forall w, PP 0 w = 0).
    { intros w. unfold PP. rewrite (RoundUp_mult kreg 0) by (try apply Z.divide_0_r; lia).
      destruct (w <? RoundUp kW W); reflexivity. }
    split.
    + split; [|exact HD]. intros w d Hw Hd. rewrite EP in Hd. lia.
    + intros w Hw. rewrite EP. cbn. rewrite Hs0.
      replace ((0 <=? w) && (w <? 0 + sp_l2_width p)) with true by lia. reflexivity.
  - intros i bb Hi Hki [J1 J2]. rewrite Z.sub_0_r in Hki. cbv zeta.
    set (ds := Z.min (sp_l1_depth p) (D - i)).
    assert (Hkri : (kreg | i)) by (exact (Z.divide_trans _ _ _ P5 Hki)).
    assert (EPi : RoundUp kreg i = i) by (apply RoundUp_mult; assumption).
    assert (Hids : Z.min (i + sp_l1_depth p) D = i + ds) by lia.
    assert (ER : i + RoundUp kreg ds = RoundUp kreg (i + ds)).
    { destruct Hkri as [q Hq]. rewrite Hq. clear -Hreg.
      unfold RoundUp, RoundDown.
      replace (q * kreg + ds + kreg - 1) with (ds + kreg - 1 + q * kreg) by ring.
      rewrite Z.mod_add by lia. ring. }
    rewrite Hids.
    destruct (for_step_inv (fun j b =>
      DI f p val (fun w => if w <? RoundUp kW j then i + RoundUp kreg ds else PP i w) (pk_data b) /\
      SI p val (fun w => if w <? RoundUp kW j then i + RoundUp kreg ds else PP i w) (pk_sums b)) 0 W (sp_l1_width p)
      (fun w dst => PackL1 pk m f kreg junk p src w (Z.min (sp_l1_width p) (W - w)) i ds dst) bb)
      as (b1 & E1 & K1 & K2).
    + lia.
    + lia.
    + rewrite (RoundUp_mult kW 0) by (try apply Z.divide_0_r; lia).
      split; [eapply DI_ext|eapply SI_ext]; try eassumption;
        intros w Hw; cbv beta; replace (w <? 0) with false by lia; reflexivity.
    + intros j bb1 Hj Hkj [M1 M2]. rewrite Z.sub_0_r in Hkj.
      assert (Hkwj : (kW | j)) by (exact (Z.divide_trans _ _ _ P7 Hkj)).
      rewrite (RoundUp_mult kW j) in M1, M2 by assumption.
      set (ws := Z.min (sp_l1_width p) (W - j)).
      assert (ERw : j + RoundUp kW ws = RoundUp kW (j + ws)).
      { destruct Hkwj as [q Hq]. rewrite Hq. clear -Fw.
        unfold RoundUp, RoundDown.
        replace (q * kW + ws + kW - 1) with (ws + kW - 1 + q * kW) by ring.
        rewrite Z.mod_add by lia. ring. }
      assert (HrwW : j + RoundUp kW ws <= RoundUp kW W).
      { rewrite ERw. apply RoundUp_le_mult; [lia|apply RoundUp_div; lia|].
        pose proof (RoundUp_ge kW W Fw). lia. }
      assert (HrdD : i + RoundUp kreg ds <= sp_l2_depth p).
      { rewrite ER. transitivity (RoundUp kreg D); [|lia].
        apply RoundUp_le_mult; [lia|apply RoundUp_div; lia|].
        pose proof (RoundUp_ge kreg D Hreg). lia. }
      destruct (PackL1_spec bb1 (fun w => if w <? j then i + RoundUp kreg ds else PP i w) j ws i ds)
        as (b2 & E2 & N1 & N2); try assumption; try lia.
      * destruct (Z.le_gt_cases (sp_l1_width p) (W - j)).
        -- left. unfold ws. rewrite Z.min_l by lia. exact P7.
        -- right. lia.
      * intros w Hw. destruct (w <? j); [lia|apply PPle; lia].
      * intros w Hw. fold kW in Hw. replace (w <? j) with false by lia. unfold PP.
        replace (w <? RoundUp kW W) with true by lia. exact EPi.
      * exists b2. split; [exact E2|]. fold kW in N1, N2.
        assert (Hjw : Z.min (j + sp_l1_width p) W = j + ws) by lia. rewrite Hjw, <- ERw.
        assert (EP : forall w, 0 <= w < sp_l2_width p ->
          (if (j <=? w) && (w <? j + RoundUp kW ws) then i + RoundUp kreg ds else
           if w <? j then i + RoundUp kreg ds else PP i w) =
          (if w <? j + RoundUp kW ws then i + RoundUp kreg ds else PP i w)).
        { intros w Hw. pose proof (RoundUp_ge kW ws Fw).
          destruct ((j <=? w) && (w <? j + RoundUp kW ws)) eqn:X1, (w <? j) eqn:X2,
            (w <? j + RoundUp kW ws) eqn:X3; try reflexivity; lia. }
        split; [exact (DI_ext _ _ _ _ _ _ EP ltac:(eassumption))|exact (SI_ext _ _ _ _ _ EP ltac:(eassumption))].
    + exists b1. split; [exact E1|].
      assert (EP : forall w, 0 <= w < sp_l2_width p ->
        (if w <? RoundUp kW W then i + RoundUp kreg ds else PP i w) = PP (i + ds) w).
      { intros w Hw. unfold PP. destruct (w <? RoundUp kW W); [exact ER|reflexivity]. }
      split; [exact (DI_ext _ _ _ _ _ _ EP ltac:(eassumption))|exact (SI_ext _ _ _ _ _ EP ltac:(eassumption))].
  - exists b'. split; [exact E|]. destruct K1 as [K1 K1d]. split; [exact K1d|]. split.
    + intros w d Hw Hd. apply K1; [lia|]. unfold PP. replace (w <? RoundUp kW W) with true by lia. exact Hd.
    + intros w Hw. rewrite K2 by assumption. f_equal. f_equal. unfold psum, PP.
      pose proof (RoundUp_ge kW W Fw). pose proof (RoundUp_ge kreg D Hreg).
      destruct (Z.ltb_spec w (RoundUp kW W)).
      * rewrite (sumZ_split _ 0 D (RoundUp kreg D)) by lia. rewrite (sumZ_zero (val w) D); [lia|]. intros d Hd. apply Hpad. right. fold D. lia.
      * rewrite (sumZ_empty (val w) 0 0) by lia. symmetry. apply sumZ_zero. intros d Hd. apply Hpad. left. lia.
Qed.
End PackSide3.
