From Verif Require Import Base BaseLemmas CommonModel CommonProofs PackModel PackSpec PackProofs.

Lemma mult_step x n c : 0 < c -> (c | x) -> (c | n) -> x < n -> x + c <= n.
Proof.
  intros Hc [a ->] [b ->] H.
  assert (a < b) by (apply (Z.mul_lt_mono_pos_r c); assumption).
  replace (a * c + c) with ((a + 1) * c) by ring. apply Z.mul_le_mono_nonneg_r; lia.
Qed.

Definition byte (z : Z) : Z := wrapU 8 z.

Lemma zp_cases f : (sf_zp f = 0 \/ sf_zp f = 128) /\ (in_min f = 0 \/ in_min f = -128 /\ sf_zp f = 0).
Proof. unfold sf_zp, in_min. destruct (sf_kind f); lia. Qed.

Lemma run_index_ci f w d : run_index f w d = ci f w d.
Proof. reflexivity. Qed.

Section Block.
Variables (m : ovf) (f : side_fmt) (kreg : Z) (g : Z -> Z -> Z) (s : Z -> Z) (pos sw : Z) (data0 sums0 : mem).
Hypothesis Hf : side_fmt_ok f.
Hypothesis Hreg : 0 < kreg.
Hypothesis Hcdreg : (sf_cd f | kreg).
Hypothesis Hg : forall w d, 0 <= w < sf_width f -> 0 <= d < kreg -> in_min f <= g w d <= in_min f + 255.
Hypothesis Hd0 : forall w d, 0 <= w < sf_width f -> 0 <= d < kreg -> exists v, data0 (pos + ci f w d) = Some v.
Hypothesis Hs0 : forall w, 0 <= w < sf_width f -> sums0 (sw + w) = Some (s w) /\ - 2 ^ 31 <= s w <= 2 ^ 31 - 1.
Hypothesis Hm : m = Wrap \/ forall w, 0 <= w < sf_width f -> Z.abs (s w) + 255 * kreg <= 2 ^ 31 - 1.

Definition bval (w d : Z) : Z := g w d - sf_zp f.
Definition bsum (w a b : Z) : Z := sumZ (bval w) a b.
Definition outside (a : Z) : Prop := forall w d, 0 <= w < sf_width f -> 0 <= d < kreg -> a <> pos + ci f w d.

(* done w d: (w,d) has been packed *)
Definition BD (done : Z -> Z -> Prop) (data : mem) : Prop :=
  (forall w d, 0 <= w < sf_width f -> 0 <= d < kreg -> done w d -> data (pos + ci f w d) = Some (byte (bval w d))) /\
  (forall w d, 0 <= w < sf_width f -> 0 <= d < kreg -> exists v, data (pos + ci f w d) = Some v) /\
  (forall a, outside a -> data a = data0 a).
(* P w: how much of slice w has been added to its sum *)
Definition BS (P : Z -> Z) (sums : mem) : Prop :=
  (forall w, 0 <= w < sf_width f -> sums (sw + w) = Some (wrapS 32 (s w + bsum w 0 (P w)))) /\
  (forall a, a < sw \/ sw + sf_width f <= a -> sums a = sums0 a).

Lemma BD_ext (D D' : Z -> Z -> Prop) data : (forall w d, 0 <= w < sf_width f -> 0 <= d < kreg -> D' w d -> D w d) -> BD D data -> BD D' data.
Proof. intros E (A & B & C). split; [|split; assumption]. intros w d Hw Hd H. apply A; auto. Qed.
Lemma BS_ext P P' sums : (forall w, 0 <= w < sf_width f -> P w = P' w) -> BS P sums -> BS P' sums.
Proof. intros E [A C]. split; [|exact C]. intros w Hw. rewrite <- E by exact Hw. apply A, Hw. Qed.

Lemma BD_init : BD (fun _ _ => False) data0.
Proof. clear - Hd0. split; [intros; contradiction|]. split; [exact Hd0|reflexivity]. Qed.
Lemma BS_init : BS (fun _ => 0) sums0.
Proof. clear - Hs0.
  split; [|reflexivity]. intros w Hw. destruct (Hs0 w Hw) as [E B]. rewrite E.
  unfold bsum. rewrite sumZ_empty by lia. rewrite wrapS_small; [f_equal; lia|lia|].
  unfold int_min, int_max. change (2 ^ (32 - 1)) with (2 ^ 31). lia.
Qed.

Lemma BD_write (D : Z -> Z -> Prop) data w0 d0 : 0 <= w0 < sf_width f -> 0 <= d0 < kreg -> BD D data ->
  exists data', wr data (pos + ci f w0 d0) (byte (bval w0 d0)) = Some data' /\
    BD (fun w d => D w d \/ (w = w0 /\ d = d0)) data'.
Proof. clear - Hf.
  intros Hw0 Hd1 (A & B & C). destruct (B w0 d0 Hw0 Hd1) as [v Ev].
  exists (upd data (pos + ci f w0 d0) (byte (bval w0 d0))).
  split; [eapply wr_ok; exact Ev|]. split; [|split].
  - intros w d Hw Hd H. destruct (Z.eq_dec (pos + ci f w d) (pos + ci f w0 d0)) as [E|E].
    + rewrite E, upd_same. apply Z.add_cancel_l in E.
      destruct (ci_inj f Hf w d w0 d0 ltac:(lia) ltac:(lia) ltac:(lia) ltac:(lia) E) as [-> ->]. reflexivity.
    + rewrite upd_other by congruence. apply A; [assumption..|].
      destruct H as [H|[-> ->]]; [exact H|contradiction].
  - intros w d Hw Hd. unfold upd. destruct (pos + ci f w d =? pos + ci f w0 d0); eauto.
  - intros a Ha. rewrite upd_other; [apply C, Ha|]. apply Ha; assumption.
Qed.

Lemma bval_range w d : 0 <= w < sf_width f -> 0 <= d < kreg -> - 128 <= bval w d <= 255.
Proof. clear - Hg. intros Hw Hd. unfold bval. specialize (Hg w d Hw Hd). pose proof (zp_cases f). lia. Qed.
Lemma bval_wrap16 w d : 0 <= w < sf_width f -> 0 <= d < kreg -> wrapS 16 (bval w d) = bval w d.
Proof. clear - Hg.
  intros Hw Hd. pose proof (bval_range w d Hw Hd). apply wrapS_small; [lia|].
  unfold int_min, int_max. change (2 ^ (16 - 1)) with 32768. lia.
Qed.
Lemma bsum_bound w a b : 0 <= w < sf_width f -> 0 <= a <= b -> b <= kreg -> Z.abs (bsum w a b) <= 255 * (b - a).
Proof. clear - Hg.
  intros Hw Ha Hb. unfold bsum.
  pose proof (sumZ_bound (bval w) a b (-255) 255 ltac:(lia)) as B.
  destruct B as [B1 B2]; [intros i Hi; pose proof (bval_range w i Hw ltac:(lia)); lia|]. lia.
Qed.
Lemma bsum_ok w a b : 0 <= w < sf_width f -> 0 <= a <= b -> b <= kreg -> okZ m (bsum w a b) /\ okZ m (s w + bsum w a b).
Proof. clear - Hg Hm.
  intros Hw Ha Hb. pose proof (bsum_bound w a b Hw Ha Hb).
  destruct Hm as [->|H1]; [split; left; reflexivity|]. specialize (H1 w Hw).
  unfold okZ, int_min, int_max. change (2 ^ (32 - 1)) with (2 ^ 31). split; right; lia.
Qed.
End Block.

Lemma Pack_correct m f kreg : side_fmt_ok f -> 0 < kreg -> (sf_cd f | kreg) ->
  pack_correct m f kreg (Pack m f kreg).
Proof.
  intros Hf Hreg Hcdreg src sw b g s _ Hsrcw Hsrcd Hsrc Hd0 Hs0 Hm.
  assert (Hg : forall w d, 0 <= w < sf_width f -> 0 <= d < kreg -> in_min f <= g w d <= in_min f + 255)
    by (intros w d Hw Hd; apply (Hsrc w d Hw Hd)).
  destruct (f_pos f Hf) as (Fcw&Fcd&Fcells&Fw&Fcs).
  destruct Hcdreg as [nr Hnr]. assert (Hnr0 : 0 < nr) by nia.
  unfold Pack. cbv zeta.
  set (kW := sf_width f) in *. set (cw := sf_cw f) in *. set (cd := sf_cd f) in *.
  assert (HkW : kW = sf_cells f * cw) by reflexivity.
  set (D := BD f kreg g (pk_pos b) (pk_data b)).
  set (S := BS f g s sw (pk_sums b)).
  (* cds: depth of the current row of cells; slices below edge are packed to cds+cd *)
  set (DD := fun (cds edge : Z) (w d : Z) => d < cds \/ (d < cds + cd /\ w < edge)).
  set (PP := fun (cds edge : Z) (w : Z) => if w <? edge then cds + cd else cds).
  set (I1 := fun (i : Z) (st : Z * mem * mem) =>
    fst (fst st) = pk_pos b + kW * i /\ D (DD i 0) (snd (fst st)) /\ S (PP i 0) (snd st)).
  match goal with |- exists b', bind (for_step 0 ?n ?c ?bd ?s0) _ = _ /\ _ =>
    destruct (for_step_inv I1 0 n c bd s0) as (st & Est & HI) end.
  - lia.
  - lia.
  - unfold I1. cbn [fst snd]. split; [lia|]. split.
    + apply (BD_ext f kreg g (pk_pos b) (pk_data b) (fun _ _ => False)); [|apply BD_init; exact Hd0]. intros w d Hw Hd H. unfold DD in H. lia.
    + apply (BS_ext f g s sw (pk_sums b) (fun _ => 0)); [|apply BS_init; exact Hs0]. intros w Hw. unfold PP. replace (w <? 0) with false by lia. reflexivity.
  - (* one row of cells *)
    intros cds st0 Hcds [q Hq] HI1. rewrite Z.sub_0_r in Hq.
    destruct HI1 as (Hptr & HD1 & HS1). destruct st0 as [[ptr0 data0] sums0]. cbn [fst snd] in *.
    assert (Hcdsreg : cds + cd <= kreg) by (apply mult_step; [assumption|exists q; exact Hq|exists nr; exact Hnr|lia]).
    set (I2 := fun (i : Z) (st : Z * mem * mem) =>
      fst (fst st) = pk_pos b + kW * cds + i * cd /\ D (DD cds i) (snd (fst st)) /\ S (PP cds i) (snd st)).
    match goal with |- exists s1, for_step 0 kW cw ?bd ?s0 = _ /\ _ =>
      destruct (for_step_inv I2 0 kW cw bd s0) as (st2 & Est2 & HI2)
    end.
    + lia.
    + lia.
    + unfold I2. cbn [fst snd]. split; [lia|]. split; assumption.
    + (* one cell *)
      intros cws st3 Hcws [j Hj] HI2. rewrite Z.sub_0_r in Hj.
      destruct HI2 as (Hptr2 & HD2 & HS2). destruct st3 as [[ptr data1] sums1]. cbn [fst snd] in *.
      assert (Hcwsk : cws + cw <= kW) by (apply mult_step; [assumption|exists j; exact Hj|exists (sf_cells f); exact HkW|lia]).
      assert (Eblk : sm_block src cws cds cw cd =
        Some (mk_smap (sm_mem src) (sm_addr src cws cds) cw cd (sm_stride src) (sm_order src))).
      { unfold sm_block, guard. rewrite Hsrcw, Hsrcd.
        replace (0 <=? cws) with true by lia. replace (cws + cw <=? kW) with true by lia.
        replace (0 <=? cds) with true by lia. replace (cds + cd <=? kreg) with true by lia. reflexivity. }
      rewrite Eblk. cbn [bind].
      set (blk := mk_smap (sm_mem src) (sm_addr src cws cds) cw cd (sm_stride src) (sm_order src)).
      assert (Hget : forall w d, 0 <= w < cw -> 0 <= d < cd -> sm_get blk w d = Some (g (cws + w) (cds + d))).
      { intros w d Hw Hd. rewrite <- (proj1 (Hsrc (cws + w) (cds + d) ltac:(lia) ltac:(lia))).
        unfold sm_get. f_equal. unfold sm_addr, blk, sm_width_stride, sm_depth_stride. cbn.
        unfold sm_addr, sm_width_stride, sm_depth_stride. destruct (sm_order src); ring. }
      (* slices of the cell *)
      set (I3 := fun (i : Z) (ds : mem * mem) => D (DD cds (cws + i)) (fst ds) /\ S (PP cds (cws + i)) (snd ds)).
      match goal with |- exists s1, bind (for_step 0 cw 1 ?bd ?s0) _ = _ /\ _ =>
        destruct (for_step_inv1 I3 0 cw bd s0) as (st4 & Est4 & HI4)
      end.
      * lia.
      * unfold I3. cbn [fst snd]. rewrite Z.add_0_r. split; assumption.
      * intros wi ds Hwi HI3. destruct HI3 as (HD3 & HS3). destruct ds as [data2 sums2]. cbn [fst snd] in *.
        set (w0 := cws + wi) in *. assert (Hw0 : 0 <= w0 < kW) by lia.
        (* depth loop *)
        set (I4 := fun (i : Z) (x : mem * Z) =>
          D (fun w d => DD cds w0 w d \/ (w = w0 /\ d < cds + i)) (fst x) /\
          snd x = wrapS 32 (bsum f g w0 cds (cds + i))).
        match goal with |- exists s1, bind (for_step 0 cd 1 ?bd ?s0) _ = _ /\ _ =>
          destruct (for_step_inv1 I4 0 cd bd s0) as (st5 & Est5 & HI5)
        end.
        -- lia.
        -- unfold I4. cbn [fst snd]. split.
           ++ refine (BD_ext f kreg g (pk_pos b) (pk_data b) _ _ _ _ _); [|exact HD3]. unfold DD. intros w d Hw Hd H. lia.
           ++ unfold bsum. rewrite sumZ_empty by lia. reflexivity.
        -- intros di x Hdi HI4. destruct HI4 as [HD4 HS4]. destruct x as [data3 sum]. cbn [fst snd] in *.
           rewrite Hget by lia. cbn [bind]. fold w0. change (g w0 (cds + di) - sf_zp f) with (bval f g w0 (cds + di)).
           rewrite (bval_wrap16 f kreg g Hg) by lia.
           rewrite (OffsetIntoCell_off f wi di Hf). cbn [bind].
           assert (Epos : ptr + off f wi di = pk_pos b + ci f w0 (cds + di)).
           { rewrite Hptr2. unfold w0.
             replace (cws + wi) with (j * cw + wi) by lia. replace (cds + di) with (q * cd + di) by lia.
             unfold cw, cd. rewrite ci_cell by assumption.
             rewrite Hq, Hj, HkW. unfold sf_cellsize. fold cw cd. ring. }
           rewrite Epos.
           destruct (BD_write f kreg g (pk_pos b) (pk_data b) Hf _ data3 w0 (cds + di) Hw0 ltac:(lia) HD4)
             as (data4 & Ewr & HD5).
           unfold byte in Ewr. rewrite Ewr. cbn [bind]. rewrite HS4.
           assert (Hps : bsum f g w0 cds (cds + di) + bval f g w0 (cds + di) = bsum f g w0 cds (cds + (di + 1))).
           { unfold bsum. replace (cds + (di + 1)) with (cds + di + 1) by lia. rewrite sumZ_last by lia. reflexivity. }
           rewrite norm_acc1.
           ++ cbn [bind]. eexists. split; [reflexivity|]. unfold I4. cbn [fst snd]. rewrite Hps. split; [|reflexivity].
              refine (BD_ext f kreg g (pk_pos b) (pk_data b) _ _ _ _ _); [|exact HD5]. unfold DD. cbv beta. intros w d Hw Hd H. lia.
           ++ apply (bsum_ok m f kreg g s Hg Hm); lia.
           ++ rewrite Hps. apply (bsum_ok m f kreg g s Hg Hm); lia.
        -- destruct st5 as [data3 sum]. unfold I4 in HI5. cbn [fst snd] in HI5.
           destruct HI5 as [HD5 HS5]. rewrite Est5. cbn [bind].
           replace (sw + cws + wi) with (sw + w0) by (unfold w0; lia).
           pose proof (proj1 HS3 w0 Hw0) as Hold.
           replace (PP cds w0 w0) with cds in Hold by (unfold PP; replace (w0 <? w0) with false by lia; reflexivity).
           unfold rd. rewrite Hold. cbn [bind]. rewrite HS5.
           assert (Hps : s w0 + bsum f g w0 0 cds + bsum f g w0 cds (cds + cd) = s w0 + bsum f g w0 0 (cds + cd)).
           { unfold bsum. rewrite <- Z.add_assoc. rewrite <- sumZ_split by lia. reflexivity. }
           rewrite norm_acc; [|apply (bsum_ok m f kreg g s Hg Hm); lia|apply (bsum_ok m f kreg g s Hg Hm); lia|
                              rewrite Hps; apply (bsum_ok m f kreg g s Hg Hm); lia].
           rewrite Hps. cbn [bind]. erewrite wr_ok by exact Hold. cbn [bind].
           eexists. split; [reflexivity|]. unfold I3. cbn [fst snd]. split.
           ++ refine (BD_ext f kreg g (pk_pos b) (pk_data b) _ _ _ _ _); [|exact HD5]. unfold DD. cbv beta. intros w d Hw Hd H. lia.
           ++ split.
              ** intros w Hw. unfold upd. destruct (Z.eqb_spec (sw + w) (sw + w0)) as [E|Hne].
                 { replace w with w0 by lia. unfold PP. replace (w0 <? cws + (wi + 1)) with true by lia. reflexivity. }
                 rewrite (proj1 HS3 w Hw). unfold PP.
                 replace (w <? cws + (wi + 1)) with (w <? w0) by lia. reflexivity.
              ** intros a Ha. fold kW in Ha. rewrite upd_other by lia. apply (proj2 HS3). exact Ha.
      * rewrite Est4. destruct st4 as [data2 sums2]. unfold I3 in HI4. cbn [fst snd] in HI4.
        destruct HI4 as [HD4 HS4]. cbn [bind].
        eexists. split; [reflexivity|]. unfold I2. cbn [fst snd].
        replace (Z.min (cws + cw) kW) with (cws + cw) by lia.
        split; [|split; assumption]. rewrite Hptr2. unfold sf_cellsize. fold cw cd. ring.
    + rewrite Est2. exists st2. split; [reflexivity|].
      destruct st2 as [[ptr2 data2] sums2]. destruct HI2 as (A&B&C). cbn [fst snd] in *.
      unfold I1. cbn [fst snd].
      replace (Z.min (cds + cd) kreg) with (cds + cd) by lia.
      split; [rewrite A; ring|]. split.
      * refine (BD_ext f kreg g (pk_pos b) (pk_data b) _ _ _ _ _); [|exact B]. fold kW. unfold DD. intros w d Hw Hd H. lia.
      * refine (BS_ext f g s sw (pk_sums b) _ _ _ _ _); [|exact C]. fold kW. intros w Hw. unfold PP.
        replace (w <? kW) with true by lia. replace (w <? 0) with false by lia. reflexivity.
  - rewrite Est. cbn [bind].
    destruct st as [[ptr data] sums]. destruct HI as (A&B&C). cbn [fst snd] in *.
    eexists. split; [reflexivity|]. cbn [pk_data pk_sums pk_pos seek_forward_n_cells].
    destruct B as (B1 & B2 & B3). destruct C as [C1 C2].
    split; [|split; [|split; [|split]]].
    + intros w d Hw Hd. rewrite run_index_ci. rewrite B1; [reflexivity|assumption..|]. unfold DD. lia.
    + exact B3.
    + intros w Hw. rewrite C1 by exact Hw. unfold PP. replace (w <? 0) with false by lia. reflexivity.
    + exact C2.
    + fold cd. rewrite Hnr. rewrite Z.mul_assoc, Z.quot_mul by lia.
      rewrite HkW. unfold sf_cellsize. fold cw cd. ring.
Qed.
