From Verif Require Import Base BaseLemmas CommonModel CommonProofs PackModel PackSpec PackProofs PackBlock PackSimdModel.

Lemma load_ok h n : forall m a, (forall i, (i < n)%nat -> m (a + Z.of_nat i) = Some (h i)) ->
  load m a n = Some (map h (seq 0 n)).
Proof.
  revert h. induction n as [|n IH]; intros h m a H; [reflexivity|].
  cbn [load seq map]. unfold rd. rewrite <- (Z.add_0_r a) at 1. change 0 with (Z.of_nat 0).
  rewrite H by lia. cbn [bind].
  rewrite (IH (fun i => h (S i))).
  - cbn [bind]. rewrite <- seq_shift, map_map. reflexivity.
  - intros i Hi. rewrite <- H by lia. f_equal. lia.
Qed.

Lemma store_ok l : forall m a, (forall i, 0 <= i < Z.of_nat (length l) -> exists v, m (a + i) = Some v) ->
  exists m', store m a l = Some m' /\
    forall x, m' x = if (a <=? x) && (x <? a + Z.of_nat (length l)) then Some (nth (Z.to_nat (x - a)) l 0) else m x.
Proof.
  induction l as [|v l IH]; intros m a H.
  - exists m. split; [reflexivity|]. intros x. replace ((a <=? x) && (x <? a + Z.of_nat (length (@nil Z)))) with false by (cbn; lia). reflexivity.
  - cbn [length] in *. destruct (H 0 ltac:(lia)) as [v0 E0]. rewrite Z.add_0_r in E0.
    cbn [store]. erewrite wr_ok by exact E0. cbn [bind].
    destruct (IH (upd m a v) (a + 1)) as (m' & E & Hm').
    + intros i Hi. rewrite upd_other by lia. replace (a + 1 + i) with (a + (i + 1)) by lia. apply H. lia.
    + exists m'. split; [exact E|]. intros x. rewrite Hm'. unfold upd.
      destruct (Z.eqb_spec x a) as [->|Hne].
      * replace ((a + 1 <=? a) && (a <? a + 1 + Z.of_nat (length l))) with false by lia.
        replace ((a <=? a) && (a <? a + Z.of_nat (S (length l)))) with true by lia.
        rewrite Z.sub_diag. reflexivity.
      * replace ((a <=? x) && (x <? a + Z.of_nat (S (length l)))) with ((a + 1 <=? x) && (x <? a + 1 + Z.of_nat (length l))) by lia.
        destruct ((a + 1 <=? x) && (x <? a + 1 + Z.of_nat (length l))) eqn:Ex; [|reflexivity].
        replace (Z.to_nat (x - a)) with (S (Z.to_nat (x - (a + 1)))) by lia. reflexivity.
Qed.

Lemma sumZ_8 f a : sumZ f a (a + 8) =
  f (a + 0) + f (a + 1) + f (a + 2) + f (a + 3) + f (a + 4) + f (a + 5) + f (a + 6) + f (a + 7).
Proof. unfold sumZ. replace (Z.to_nat (a + 8 - a)) with 8%nat by lia. reflexivity. Qed.
Lemma sumZ_16 f a : sumZ f a (a + 16) =
  f (a + 0) + f (a + 1) + f (a + 2) + f (a + 3) + f (a + 4) + f (a + 5) + f (a + 6) + f (a + 7) +
  f (a + 8) + f (a + 9) + f (a + 10) + f (a + 11) + f (a + 12) + f (a + 13) + f (a + 14) + f (a + 15).
Proof. unfold sumZ. replace (Z.to_nat (a + 16 - a)) with 16%nat by lia. reflexivity. Qed.

Section Simd.
Variables (f : side_fmt) (kreg : Z) (g : Z -> Z -> Z) (s : Z -> Z) (pos sw : Z) (data0 sums0 : mem).
Hypothesis Hf : side_fmt_ok f.
Hypothesis Hreg : 0 < kreg.
Hypothesis Hcdreg : (sf_cd f | kreg).
Hypothesis Hg : forall w d, 0 <= w < sf_width f -> 0 <= d < kreg -> in_min f <= g w d <= in_min f + 255.

Let D := BD f kreg g pos data0.
Let S := BS f g s sw sums0.

(* a store of consecutive packed bytes *)
Lemma BD_store (done : Z -> Z -> Prop) data a l : BD f kreg g pos data0 done data ->
  (forall i, 0 <= i < Z.of_nat (length l) -> exists w d, 0 <= w < sf_width f /\ 0 <= d < kreg /\
     a + i = pos + ci f w d /\ nth (Z.to_nat i) l 0 = byte (bval f g w d)) ->
  exists data', store data a l = Some data' /\
    BD f kreg g pos data0 (fun w d => done w d \/ a <= pos + ci f w d < a + Z.of_nat (length l)) data'.
Proof.
  clear - Hf. intros (A & B & C) H.
  destruct (store_ok l data a) as (data' & E & H').
  { intros i Hi. destruct (H i Hi) as (w & d & Hw & Hd & Ea & _). rewrite Ea. apply B; assumption. }
  exists data'. split; [exact E|]. split; [|split].
  - intros w d Hw Hd HD. rewrite H'.
    destruct ((a <=? pos + ci f w d) && (pos + ci f w d <? a + Z.of_nat (length l))) eqn:Ex.
    + destruct (H (pos + ci f w d - a) ltac:(lia)) as (w1 & d1 & Hw1 & Hd1 & Ea & Ev).
      assert (Ec : ci f w d = ci f w1 d1) by lia.
      destruct (ci_inj f Hf w d w1 d1 ltac:(lia) ltac:(lia) ltac:(lia) ltac:(lia) Ec) as [-> ->]. rewrite Ev. reflexivity.
    + apply A; [assumption..|]. destruct HD as [HD|HD]; [exact HD|lia].
  - intros w d Hw Hd. rewrite H'. destruct ((a <=? pos + ci f w d) && (pos + ci f w d <? a + Z.of_nat (length l))); eauto.
  - intros x Hx. rewrite H'. destruct ((a <=? x) && (x <? a + Z.of_nat (length l))) eqn:Ex; [|apply C, Hx].
    destruct (H (x - a) ltac:(lia)) as (w1 & d1 & Hw1 & Hd1 & Ea & _).
    exfalso. apply (Hx w1 d1 Hw1 Hd1). lia.
Qed.

(* a store of the whole cell number j of row q *)
Lemma BD_cell (done : Z -> Z -> Prop) data q j l : BD f kreg g pos data0 done data ->
  0 <= j < sf_cells f -> 0 <= q -> q * sf_cd f + sf_cd f <= kreg -> Z.of_nat (length l) = sf_cellsize f ->
  (forall w d, 0 <= w < sf_cw f -> 0 <= d < sf_cd f ->
     nth (Z.to_nat (off f w d)) l 0 = byte (bval f g (j * sf_cw f + w) (q * sf_cd f + d))) ->
  exists data', store data (pos + (q * sf_cells f + j) * sf_cellsize f) l = Some data' /\
    BD f kreg g pos data0 (fun w d => done w d \/
      (j * sf_cw f <= w < j * sf_cw f + sf_cw f /\ q * sf_cd f <= d < q * sf_cd f + sf_cd f)) data'.
Proof.
  clear - Hf. intros HB Hj Hq Hqk Hl Hv. destruct (f_pos f Hf) as (Fcw&Fcd&Fcells&Fw&Fcs).
  assert (HjW : j * sf_cw f + sf_cw f <= sf_width f) by (unfold sf_width; nia).
  assert (Hj0 : 0 <= j * sf_cw f) by (apply Z.mul_nonneg_nonneg; lia).
  assert (Hq0 : 0 <= q * sf_cd f) by (apply Z.mul_nonneg_nonneg; lia).
  destruct (BD_store done data (pos + (q * sf_cells f + j) * sf_cellsize f) l HB) as (data' & E & HD).
  - intros i Hi. destruct (off_surj f i Hf ltac:(unfold sf_cellsize in *; lia)) as (w & d & Hw & Hd & Eo).
    exists (j * sf_cw f + w), (q * sf_cd f + d). split; [lia|]. split; [lia|].
    rewrite ci_cell by assumption. split; [lia|]. rewrite <- Hv by assumption. rewrite Eo. reflexivity.
  - exists data'. split; [exact E|]. eapply BD_ext; [|exact HD].
    intros w d Hw Hd [H|[H1 H2]]; [left; exact H|right].
    replace w with (j * sf_cw f + (w - j * sf_cw f)) by lia. replace d with (q * sf_cd f + (d - q * sf_cd f)) by lia.
    rewrite ci_cell by lia. pose proof (off_range f (w - j * sf_cw f) (d - q * sf_cd f) Hf ltac:(lia) ltac:(lia)).
    unfold sf_cellsize in *. lia.
Qed.

(* the sums of n slices from slice c on *)
Lemma BS_load P sums c n : BS f g s sw sums0 P sums -> 0 <= c -> c + Z.of_nat n <= sf_width f ->
  load sums (sw + c) n = Some (map (fun i => wrapS 32 (s (c + Z.of_nat i) + bsum f g (c + Z.of_nat i) 0 (P (c + Z.of_nat i)))) (seq 0 n)).
Proof.
  clear. intros [A _] Hc Hn. apply load_ok. intros i Hi. rewrite <- Z.add_assoc. apply A. lia.
Qed.
Lemma BS_store P Q sums c l : BS f g s sw sums0 P sums -> 0 <= c -> c + Z.of_nat (length l) <= sf_width f ->
  (forall i, (i < length l)%nat -> nth i l 0 = wrapS 32 (s (c + Z.of_nat i) + bsum f g (c + Z.of_nat i) 0 Q)) ->
  exists sums', store sums (sw + c) l = Some sums' /\
    BS f g s sw sums0 (fun w => if (c <=? w) && (w <? c + Z.of_nat (length l)) then Q else P w) sums'.
Proof.
  clear. intros [A B] Hc Hn Hl.
  destruct (store_ok l sums (sw + c)) as (sums' & E & H').
  { intros i Hi. rewrite <- Z.add_assoc. rewrite A by lia. eauto. }
  exists sums'. split; [exact E|]. split.
  - intros w Hw. rewrite H'.
    replace ((sw + c <=? sw + w) && (sw + w <? sw + c + Z.of_nat (length l))) with ((c <=? w) && (w <? c + Z.of_nat (length l))) by lia.
    destruct ((c <=? w) && (w <? c + Z.of_nat (length l))) eqn:Ex; [|apply A, Hw].
    rewrite Hl by lia. replace (c + Z.of_nat (Z.to_nat (sw + w - (sw + c)))) with w by lia. reflexivity.
  - intros a Ha. rewrite H'. replace ((sw + c <=? a) && (a <? sw + c + Z.of_nat (length l))) with false by lia. apply B, Ha.
Qed.

Lemma byte_bval w d : sf_kind f = FUint8 -> 0 <= w < sf_width f -> 0 <= d < kreg -> byte (bval f g w d) = g w d.
Proof.
  clear - Hg. intros E Hw Hd. unfold byte, bval, sf_zp, wrapU. rewrite E, Z.sub_0_r. apply Z.mod_small.
  specialize (Hg w d Hw Hd). unfold in_min in Hg. rewrite E in Hg. change (2 ^ 8) with 256. lia.
Qed.
End Simd.

(* ------------------------------------------------------------------ *)
(* the x86 loops around blocks *)
Lemma x86_loops_correct m f kreg block step group src0 :
  side_fmt_ok f -> 0 < kreg -> 0 < step -> (step | kreg) -> step = group * sf_cd f ->
  (forall src sw b g s P data sums cds cws done,
     sm_order src = SWidthMajor -> src0 src ->
     sm_width src = sf_width f -> sm_depth src = kreg ->
     (forall w d, 0 <= w < sf_width f -> 0 <= d < kreg -> sm_get src w d = Some (g w d) /\ in_min f <= g w d <= in_min f + 255) ->
     0 <= cds -> (step | cds) -> cds + step <= kreg -> 0 <= cws -> (sf_cw f | cws) -> cws + sf_cw f <= sf_width f ->
     BD f kreg g (pk_pos b) (pk_data b) done data -> BS f g s sw (pk_sums b) P sums ->
     (forall w, cws <= w < cws + sf_cw f -> P w = cds) ->
     exists data' sums',
       block (sm_mem src) (sm_addr src cws cds) (sm_width_stride src) data (pk_pos b + sf_width f * cds + cws * sf_cd f)
         (sf_cellsize f * sf_cells f) sums (sw + cws) = Some (data', sums') /\
       BD f kreg g (pk_pos b) (pk_data b) (fun w d => done w d \/ (cws <= w < cws + sf_cw f /\ cds <= d < cds + step)) data' /\
       BS f g s sw (pk_sums b) (fun w => if (cws <=? w) && (w <? cws + sf_cw f) then cds + step else P w) sums') ->
  forall src sw b g s,
  sm_order src = SWidthMajor -> src0 src ->
  sm_width src = sf_width f -> sm_depth src = kreg ->
  (forall w d, 0 <= w < sf_width f -> 0 <= d < kreg -> sm_get src w d = Some (g w d) /\ in_min f <= g w d <= in_min f + 255) ->
  (forall w d, 0 <= w < sf_width f -> 0 <= d < kreg -> exists v, pk_data b (pk_pos b + run_index f w d) = Some v) ->
  (forall w, 0 <= w < sf_width f -> pk_sums b (sw + w) = Some (s w) /\ - 2 ^ 31 <= s w <= 2 ^ 31 - 1) ->
  (m = Wrap \/ forall w, 0 <= w < sf_width f -> Z.abs (s w) + 255 * kreg <= 2 ^ 31 - 1) ->
  exists b', x86_loops block step group f kreg src sw b = Some b' /\
    BD f kreg g (pk_pos b) (pk_data b) (fun _ _ => True) (pk_data b') /\
    BS f g s sw (pk_sums b) (fun _ => kreg) (pk_sums b') /\
    pk_pos b' = pk_pos b + sf_width f * kreg.
Proof.
  intros Hf Hreg Hstep Hsr Hgr Hblock src sw b g s Ho Hs0 Hsrcw Hsrcd Hsrc Hd0 Hs1 Hm.
  destruct (f_pos f Hf) as (Fcw&Fcd&Fcells&Fw&Fcs).
  unfold x86_loops. cbv zeta.
  set (D := BD f kreg g (pk_pos b) (pk_data b)). set (S := BS f g s sw (pk_sums b)).
  set (kW := sf_width f) in *.
  assert (HkW : kW = sf_cells f * sf_cw f) by reflexivity.
  set (I1 := fun (i : Z) (st : Z * mem * mem) =>
    fst (fst st) = pk_pos b + kW * i /\ D (fun w d => d < i) (snd (fst st)) /\ S (fun _ => i) (snd st)).
  match goal with |- exists b', bind (for_step 0 ?n ?c ?bd ?s0) _ = _ /\ _ =>
    destruct (for_step_inv I1 0 n c bd s0) as (st & Est & HI) end.
  - lia.
  - lia.
  - unfold I1. cbn [fst snd]. split; [lia|]. split.
    + apply (BD_ext f kreg g (pk_pos b) (pk_data b) (fun _ _ => False)); [|apply BD_init; exact Hd0]. intros w d Hw Hd H. lia.
    + apply BS_init; exact Hs1.
  - intros cds st0 Hcds Hq HI1. rewrite Z.sub_0_r in Hq.
    destruct HI1 as (Hptr & HD1 & HS1). destruct st0 as [[ptr0 data1] sums1]. cbn [fst snd] in *.
    assert (Hcdsreg : cds + step <= kreg) by (apply mult_step; assumption || lia).
    set (I2 := fun (i : Z) (st : Z * mem * mem) =>
      fst (fst st) = pk_pos b + kW * cds + i * sf_cd f /\
      D (fun w d => d < cds \/ (d < cds + step /\ w < i)) (snd (fst st)) /\
      S (fun w => if w <? i then cds + step else cds) (snd st)).
    match goal with |- exists s1, bind (for_step 0 kW _ ?bd ?s0) _ = _ /\ _ =>
      destruct (for_step_inv I2 0 kW (sf_cw f) bd s0) as (st2 & Est2 & HI2)
    end.
    + lia.
    + lia.
    + unfold I2. cbn [fst snd]. split; [lia|]. split.
      * refine (BD_ext f kreg g (pk_pos b) (pk_data b) _ _ _ _ HD1). intros w d Hw Hd H. lia.
      * refine (BS_ext f g s sw (pk_sums b) _ _ _ _ HS1). intros w Hw. replace (w <? 0) with false by lia. reflexivity.
    + intros cws st3 Hcws Hj HI2. rewrite Z.sub_0_r in Hj.
      destruct HI2 as (Hptr2 & HD2 & HS2). destruct st3 as [[ptr data2] sums2]. cbn [fst snd] in *.
      assert (Hcwsk : cws + sf_cw f <= kW) by (apply mult_step; [assumption|assumption|exists (sf_cells f); exact HkW|lia]).
      destruct (Hblock src sw b g s (fun w => if w <? cws then cds + step else cds) data2 sums2 cds cws _ Ho Hs0 Hsrcw Hsrcd Hsrc
        ltac:(lia) Hq Hcdsreg ltac:(lia) Hj Hcwsk HD2 HS2) as (data3 & sums3 & E3 & HD3 & HS3).
      { intros w Hw. replace (w <? cws) with false by lia. reflexivity. }
      rewrite Hptr2, E3. cbn [bind]. eexists. split; [reflexivity|].
      unfold I2. cbn [fst snd]. rewrite Z.min_l by lia. split; [unfold sf_cellsize; ring|]. split.
      * refine (BD_ext f kreg g (pk_pos b) (pk_data b) _ _ _ _ HD3). cbv beta. intros w d Hw Hd H. lia.
      * refine (BS_ext f g s sw (pk_sums b) _ _ _ _ HS3). cbv beta. intros w Hw.
        destruct ((cws <=? w) && (w <? cws + sf_cw f)) eqn:E1, (w <? cws) eqn:E2, (w <? cws + sf_cw f) eqn:E4; try reflexivity; lia.
    + rewrite Est2. cbn [bind]. destruct st2 as [[ptr2 data2] sums2]. destruct HI2 as (A&B&C). cbn [fst snd] in *.
      eexists. split; [reflexivity|]. unfold I1. cbn [fst snd]. rewrite Z.min_l by lia. split; [|split].
      * rewrite A, Hgr, HkW. unfold sf_cellsize. ring.
      * refine (BD_ext f kreg g (pk_pos b) (pk_data b) _ _ _ _ B). cbv beta. fold kW. intros w d Hw Hd H. lia.
      * refine (BS_ext f g s sw (pk_sums b) _ _ _ _ C). cbv beta. fold kW. intros w Hw. replace (w <? kW) with true by lia. reflexivity.
  - rewrite Est. cbn [bind]. destruct st as [[ptr data] sums]. destruct HI as (A&B&C). cbn [fst snd] in *.
    eexists. split; [reflexivity|]. cbn [pk_data pk_sums pk_pos seek_forward_n_cells].
    split; [|split; [exact C|]].
    + refine (BD_ext f kreg g (pk_pos b) (pk_data b) _ _ _ _ B). cbv beta. intros w d Hw Hd H. lia.
    + destruct Hsr as [nr Hnr]. rewrite Hnr, Hgr.
      replace (sf_cells f * (nr * (group * sf_cd f))) with (sf_cells f * nr * group * sf_cd f) by ring.
      rewrite Z.quot_mul by lia. rewrite HkW. unfold sf_cellsize. ring.
Qed.

(* from the invariants at the end to the specification *)
Lemma block_done f kreg g s sw b b' :
  0 < kreg ->
  BD f kreg g (pk_pos b) (pk_data b) (fun _ _ => True) (pk_data b') ->
  BS f g s sw (pk_sums b) (fun _ => kreg) (pk_sums b') ->
  pk_pos b' = pk_pos b + sf_width f * kreg ->
  (forall w d, 0 <= w < sf_width f -> 0 <= d < kreg ->
     pk_data b' (pk_pos b + run_index f w d) = Some ((g w d - sf_zp f) mod 256)) /\
  (forall a, (forall w d, 0 <= w < sf_width f -> 0 <= d < kreg -> a <> pk_pos b + run_index f w d) ->
     pk_data b' a = pk_data b a) /\
  (forall w, 0 <= w < sf_width f ->
     pk_sums b' (sw + w) = Some (wrapS 32 (s w + sumZ (fun d => g w d - sf_zp f) 0 kreg))) /\
  (forall a, a < sw \/ sw + sf_width f <= a -> pk_sums b' a = pk_sums b a) /\
  pk_pos b' = pk_pos b + sf_width f * kreg.
Proof.
  intros Hreg (B1 & B2 & B3) [C1 C2] E.
  split; [|split; [|split; [|split]]].
  - intros w d Hw Hd. rewrite run_index_ci. rewrite B1; [reflexivity|assumption..|exact I].
  - exact B3.
  - intros w Hw. apply C1, Hw.
  - exact C2.
  - exact E.
Qed.

(* ------------------------------------------------------------------ *)
(* cells of n slices and two levels in width-major order *)
Definition wm_cell (n : nat) (h : nat -> nat -> Z) (r : nat) : list Z :=
  flat_map (fun i => [h i (2 * r)%nat; h i (2 * r + 1)%nat]) (seq 0 n).

Lemma wm_cell_length n h r : Z.of_nat (length (wm_cell n h r)) = Z.of_nat n * 2.
Proof.
  unfold wm_cell. generalize (seq_length n 0). generalize (seq 0 n). intros l <-.
  induction l as [|a l IH]; [reflexivity|].
  change (length (flat_map _ (a :: l))) with (S (S (length (flat_map (fun i => [h i (2 * r)%nat; h i (2 * r + 1)%nat]) l)))).
  cbn [length]. rewrite !Nat2Z.inj_succ, IH. lia.
Qed.
Lemma wm_cell_nth n h r w d : 0 <= w < Z.of_nat n -> 0 <= d < 2 ->
  nth (Z.to_nat (d + w * 2)) (wm_cell n h r) 0 = h (Z.to_nat w) (2 * r + Z.to_nat d)%nat.
Proof.
  intros Hw Hd. unfold wm_cell.
  assert (G : forall n s i k, (i < n)%nat -> (k < 2)%nat ->
    nth (2 * i + k) (flat_map (fun i => [h i (2 * r)%nat; h i (2 * r + 1)%nat]) (seq s n)) 0 = h (s + i)%nat (2 * r + k)%nat).
  { clear. induction n as [|n IH]; intros s i k Hi Hk; [lia|]. cbn [seq flat_map app].
    destruct i as [|i].
    - destruct k as [|[|k]]; [cbn..|lia]; rewrite ?Nat.add_0_r; reflexivity.
    - replace (2 * S i + k)%nat with (S (S (2 * i + k))) by lia. cbn [nth]. rewrite IH by lia. f_equal. lia. }
  replace (Z.to_nat (d + w * 2)) with (2 * Z.to_nat w + Z.to_nat d)%nat by lia.
  rewrite G by lia. reflexivity.
Qed.

Lemma madd_pairs (p q : nat -> Z) l : (forall i, In i l -> 0 <= p i <= 255 /\ 0 <= q i <= 255) ->
  madd_epi16 (flat_map (fun i => [p i; q i]) l) (repeat 1 (2 * length l)) = map (fun i => p i + q i) l.
Proof.
  unfold madd_epi16. induction l as [|a l IH]; intros H; [reflexivity|].
  replace (2 * length (a :: l))%nat with (S (S (2 * length l))) by (cbn [length]; lia).
  cbn [flat_map app map repeat map2 pairs]. rewrite IH by (intros i Hi; apply H; right; exact Hi).
  destruct (H a (or_introl eq_refl)). f_equal.
  rewrite !(wrapS_small 16) by (unfold int_min, int_max; cbn; lia).
  rewrite !Z.mul_1_r. rewrite wrapS_small by (unfold int_min, int_max; cbn; lia). reflexivity.
Qed.
Lemma madd_cell n h r : (forall i, (i < n)%nat -> 0 <= h i (2 * r)%nat <= 255 /\ 0 <= h i (2 * r + 1)%nat <= 255) ->
  madd_epi16 (wm_cell n h r) (repeat 1 (2 * n)) = map (fun i => h i (2 * r)%nat + h i (2 * r + 1)%nat) (seq 0 n).
Proof.
  intros H. rewrite <- (seq_length n 0) at 2. apply madd_pairs. intros i Hi. apply in_seq in Hi. apply H. lia.
Qed.
Lemma map2_map {A} k (u v : A -> Z) l : map2 k (map u l) (map v l) = map (fun i => k (u i) (v i)) l.
Proof. induction l as [|a l IH]; [reflexivity|]. cbn [map map2]. rewrite IH. reflexivity. Qed.
Lemma nth_map_seq (u : nat -> Z) n i : (i < n)%nat -> nth i (map u (seq 0 n)) 0 = u i.
Proof.
  intros H. rewrite (nth_indep _ 0 (u 0%nat)) by (rewrite map_length, seq_length; lia).
  rewrite map_nth. rewrite seq_nth by lia. reflexivity.
Qed.

(* one cell of a block *)
Lemma wm_cell_store f kreg g pos data0 (done : Z -> Z -> Prop) data n h r j q :
  side_fmt_ok f -> sf_cw f = Z.of_nat n -> sf_cd f = 2 -> sf_order f = CWidthMajor -> sf_kind f = FUint8 ->
  (forall w d, 0 <= w < sf_width f -> 0 <= d < kreg -> in_min f <= g w d <= in_min f + 255) ->
  0 <= j < sf_cells f -> 0 <= q -> (q + Z.of_nat r) * 2 + 2 <= kreg ->
  (forall i k, (i < n)%nat -> h i k = g (j * Z.of_nat n + Z.of_nat i) (q * 2 + Z.of_nat k)) ->
  BD f kreg g pos data0 done data ->
  exists data', store data (pos + ((q + Z.of_nat r) * sf_cells f + j) * (Z.of_nat n * 2)) (wm_cell n h r) = Some data' /\
    BD f kreg g pos data0 (fun w d => done w d \/
      (j * Z.of_nat n <= w < j * Z.of_nat n + Z.of_nat n /\ (q + Z.of_nat r) * 2 <= d < (q + Z.of_nat r) * 2 + 2)) data'.
Proof.
  intros Hf Ecw Ecd Eo Es Hg Hj Hq Hqk Hh HB.
  destruct (BD_cell f kreg g pos data0 Hf done data (q + Z.of_nat r) j (wm_cell n h r) HB Hj) as (data' & E & HD).
  - lia.
  - rewrite Ecd. lia.
  - rewrite wm_cell_length. unfold sf_cellsize. rewrite Ecw, Ecd. reflexivity.
  - rewrite Ecw, Ecd. intros w d Hw Hd. unfold off. rewrite Eo, Ecd. rewrite wm_cell_nth by assumption.
    rewrite Hh by lia. rewrite Nat2Z.inj_add, Nat2Z.inj_mul, !Z2Nat.id by lia.
    assert (j * Z.of_nat n + w < sf_width f) by (unfold sf_width; rewrite Ecw; nia).
    assert (0 <= j * Z.of_nat n) by (apply Z.mul_nonneg_nonneg; lia).
    rewrite (byte_bval f kreg g Hg) by (assumption || lia). f_equal. change (Z.of_nat 2) with 2. ring.
  - exists data'. rewrite Ecw, Ecd in HD. unfold sf_cellsize in E. rewrite Ecw, Ecd in E. split; [exact E|exact HD].
Qed.

(* what one block has to do *)
Definition block_correct (f : side_fmt) (kreg step : Z)
  (block : mem -> Z -> Z -> mem -> Z -> Z -> mem -> Z -> option (mem * mem)) : Prop :=
  forall src sw b g s P data sums cds cws done,
     sm_order src = SWidthMajor -> True ->
     sm_width src = sf_width f -> sm_depth src = kreg ->
     (forall w d, 0 <= w < sf_width f -> 0 <= d < kreg -> sm_get src w d = Some (g w d) /\ in_min f <= g w d <= in_min f + 255) ->
     0 <= cds -> (step | cds) -> cds + step <= kreg -> 0 <= cws -> (sf_cw f | cws) -> cws + sf_cw f <= sf_width f ->
     BD f kreg g (pk_pos b) (pk_data b) done data -> BS f g s sw (pk_sums b) P sums ->
     (forall w, cws <= w < cws + sf_cw f -> P w = cds) ->
     exists data' sums',
       block (sm_mem src) (sm_addr src cws cds) (sm_width_stride src) data (pk_pos b + sf_width f * cds + cws * sf_cd f)
         (sf_cellsize f * sf_cells f) sums (sw + cws) = Some (data', sums') /\
       BD f kreg g (pk_pos b) (pk_data b) (fun w d => done w d \/ (cws <= w < cws + sf_cw f /\ cds <= d < cds + step)) data' /\
       BS f g s sw (pk_sums b) (fun w => if (cws <=? w) && (w <? cws + sf_cw f) then cds + step else P w) sums'.

(* loading a line of a width-major source *)
Lemma line_ok f kreg src g cws cds i ws n :
  sm_order src = SWidthMajor ->
  (forall w d, 0 <= w < sf_width f -> 0 <= d < kreg -> sm_get src w d = Some (g w d) /\ in_min f <= g w d <= in_min f + 255) ->
  0 <= cds -> cds + Z.of_nat n <= kreg -> 0 <= cws -> cws + i < sf_width f -> 0 <= i -> ws = i * sm_width_stride src ->
  load (sm_mem src) (sm_addr src cws cds + ws) n = Some (map (fun k => g (cws + i) (cds + Z.of_nat k)) (seq 0 n)).
Proof.
  intros Ho Hsrc H1 H2 H3 H4 H5 ->. apply load_ok. intros k Hk.
  destruct (Hsrc (cws + i) (cds + Z.of_nat k) ltac:(lia) ltac:(lia)) as [E _]. rewrite <- E.
  unfold sm_get, rd. f_equal. unfold sm_addr, sm_depth_stride. rewrite Ho. ring.
Qed.

Lemma sse_cells (h : nat -> nat -> Z) :
  let xmm i := map (h i) (seq 0 8) ++ repeat 0 8 in
  let xmm5 := unpacklo 2 (xmm 0%nat) (xmm 1%nat) in
  let xmm8 := mm_shuffle_epi32 xmm5 0x31 in
  let xmm6 := unpacklo 2 (xmm 2%nat) (xmm 3%nat) in
  let xmm7 := mm_shuffle_epi32 xmm6 0x80 in
  let xmm9 := mm_blend_epi16 xmm5 xmm7 0xcc in
  let xmm10 := mm_blend_epi16 xmm8 xmm6 0xcc in
  low 8 xmm9 = wm_cell 4 h 0 /\ low 8 xmm10 = wm_cell 4 h 1 /\
  low 8 (mm_shuffle_epi32 xmm9 0xee) = wm_cell 4 h 2 /\ low 8 (mm_shuffle_epi32 xmm10 0xee) = wm_cell 4 h 3.
Proof. repeat split. Qed.

Lemma sse_block_correct f kreg : side_fmt_ok f -> 0 < kreg ->
  sf_cw f = 4 -> sf_cd f = 2 -> sf_order f = CWidthMajor -> sf_kind f = FUint8 ->
  block_correct f kreg 8 sse_block.
Proof.
  intros Hf Hreg Ecw Ecd Eo Es src sw b g s P data sums cds cws done Ho _ Hsw Hsd Hsrc H1 [q8 Hq8] H2 H3 [j Hj] H4 HB HS HP.
  rewrite Ecw in *. unfold sf_cellsize in *. rewrite Ecw, Ecd in *.
  assert (Hg : forall w d, 0 <= w < sf_width f -> 0 <= d < kreg -> in_min f <= g w d <= in_min f + 255) by (intros w d Hw Hd; apply (Hsrc w d Hw Hd)).
  assert (EW : sf_width f = sf_cells f * 4) by (unfold sf_width; rewrite Ecw; reflexivity).
  assert (Hjc : 0 <= j < sf_cells f) by lia.
  set (h := fun i k => g (cws + Z.of_nat i) (cds + Z.of_nat k)).
  unfold sse_block. cbv zeta.
  unfold mm_loadl_epi64.
  rewrite (line_ok f kreg src g cws cds 0 _ 8 Ho Hsrc) by lia. cbn [bind].
  rewrite (line_ok f kreg src g cws cds 1 _ 8 Ho Hsrc) by lia. cbn [bind].
  rewrite (line_ok f kreg src g cws cds 2 _ 8 Ho Hsrc) by lia. cbn [bind].
  rewrite (line_ok f kreg src g cws cds 3 _ 8 Ho Hsrc) by lia. cbn [bind].
  unfold mm_storel_epi64, cvtepu8_epi16.
  change (map (fun k => g (cws + 0) (cds + Z.of_nat k)) (seq 0 8)) with (map (h 0%nat) (seq 0 8)).
  change (map (fun k => g (cws + 1) (cds + Z.of_nat k)) (seq 0 8)) with (map (h 1%nat) (seq 0 8)).
  change (map (fun k => g (cws + 2) (cds + Z.of_nat k)) (seq 0 8)) with (map (h 2%nat) (seq 0 8)).
  change (map (fun k => g (cws + 3) (cds + Z.of_nat k)) (seq 0 8)) with (map (h 3%nat) (seq 0 8)).
  destruct (sse_cells h) as (E0 & E1 & E2 & E3). cbv zeta in E0, E1, E2, E3. rewrite E0, E1, E2, E3.
  clear E0 E1 E2 E3.
  assert (Hh : forall i k, (i < 4)%nat -> h i k = g (j * Z.of_nat 4 + Z.of_nat i) (q8 * 4 * 2 + Z.of_nat k)).
  { intros i k _. unfold h. f_equal; lia. }
  assert (Hhr : forall i k, (i < 4)%nat -> (k < 8)%nat -> 0 <= h i k <= 255).
  { intros i k Hi Hk. specialize (Hg (cws + Z.of_nat i) (cds + Z.of_nat k) ltac:(lia) ltac:(lia)). unfold in_min in Hg. rewrite Es in Hg. unfold h. lia. }
  destruct (wm_cell_store f kreg g (pk_pos b) (pk_data b) done data 4 h 0 j (q8 * 4) Hf Ecw Ecd Eo Es Hg Hjc ltac:(lia) ltac:(lia) Hh HB) as (d1 & E1 & B1).
  destruct (wm_cell_store f kreg g (pk_pos b) (pk_data b) _ d1 4 h 1 j (q8 * 4) Hf Ecw Ecd Eo Es Hg Hjc ltac:(lia) ltac:(lia) Hh B1) as (d2 & E2 & B2).
  destruct (wm_cell_store f kreg g (pk_pos b) (pk_data b) _ d2 4 h 2 j (q8 * 4) Hf Ecw Ecd Eo Es Hg Hjc ltac:(lia) ltac:(lia) Hh B2) as (d3 & E3 & B3).
  destruct (wm_cell_store f kreg g (pk_pos b) (pk_data b) _ d3 4 h 3 j (q8 * 4) Hf Ecw Ecd Eo Es Hg Hjc ltac:(lia) ltac:(lia) Hh B3) as (d4 & E4 & B4).
  erewrite (f_equal (fun a => store data a _)); [rewrite E1|rewrite EW, Hq8, Hj; cbn [Z.of_nat Pos.of_succ_nat Pos.succ]; ring]. cbn [bind].
  erewrite (f_equal (fun a => store d1 a _)); [rewrite E2|rewrite EW, Hq8, Hj; cbn [Z.of_nat Pos.of_succ_nat Pos.succ]; ring]. cbn [bind].
  erewrite (f_equal (fun a => store d2 a _)); [rewrite E3|rewrite EW, Hq8, Hj; cbn [Z.of_nat Pos.of_succ_nat Pos.succ]; ring]. cbn [bind].
  erewrite (f_equal (fun a => store d3 a _)); [rewrite E4|rewrite EW, Hq8, Hj; cbn [Z.of_nat Pos.of_succ_nat Pos.succ]; ring]. cbn [bind].
  rewrite (BS_load f g s sw (pk_sums b) P sums cws 4 HS H3 ltac:(lia)). cbn [bind].
  change (repeat 1 8) with (repeat 1 (2 * 4)).
  rewrite !madd_cell by (intros i Hi; split; apply Hhr; lia).
  unfold add_epi32. rewrite !map2_map.
  destruct (BS_store f g s sw (pk_sums b) P (cds + 8) sums cws
    (map (fun i => wrapS 32 (s (cws + Z.of_nat i) + bsum f g (cws + Z.of_nat i) 0 (cds + 8))) (seq 0 4)) HS H3) as (sums' & Es' & HS').
  { rewrite map_length, seq_length. lia. }
  { intros i Hi. rewrite map_length, seq_length in Hi. rewrite nth_map_seq by lia. reflexivity. }
  exists d4, sums'. split; [|split].
  - match goal with |- bind (store sums (sw + cws) ?l) _ = _ =>
      replace l with (map (fun i => wrapS 32 (s (cws + Z.of_nat i) + bsum f g (cws + Z.of_nat i) 0 (cds + 8))) (seq 0 4)) end.
    { rewrite Es'. reflexivity. }
    apply map_ext_in. intros i Hi. apply in_seq in Hi. symmetry.
    repeat first [rewrite wrapS_add_l by lia | rewrite <- Z.add_assoc]. f_equal.
    rewrite HP by lia. unfold bsum. rewrite (sumZ_split _ 0 cds (cds + 8)) by lia. rewrite sumZ_8.
    unfold bval, sf_zp. rewrite Es. unfold h. cbn [Nat.mul Nat.add Z.of_nat Pos.of_succ_nat Pos.succ]. ring.
  - refine (BD_ext f kreg g (pk_pos b) (pk_data b) _ _ _ _ B4). cbv beta. intros w d Hw Hd [H|[HH1 HH2]]; [tauto|].
    clear - HH1 HH2 Hj Hq8.
    assert (d - cds < 2 \/ 2 <= d - cds < 4 \/ 4 <= d - cds < 6 \/ 6 <= d - cds < 8) as [A|[A|[A|A]]] by lia;
      [left; left; left; right|left; left; right|left; right|right]; lia.
  - rewrite map_length, seq_length in HS'. exact HS'.
Qed.

Lemma avx_cells (h : nat -> nat -> Z) :
  let xmm i := map (h i) (seq 0 16) in
  let ymm1 := mm256_set_m128i (xmm 4%nat) (xmm 0%nat) in
  let ymm2 := mm256_set_m128i (xmm 5%nat) (xmm 1%nat) in
  let ymm3 := mm256_set_m128i (xmm 6%nat) (xmm 2%nat) in
  let ymm4 := mm256_set_m128i (xmm 7%nat) (xmm 3%nat) in
  let ymm5 := mm256_unpacklo 2 ymm1 ymm2 in
  let ymm6 := mm256_unpacklo 2 ymm3 ymm4 in
  let ymm9 := mm256_unpackhi 2 ymm1 ymm2 in
  let ymm10 := mm256_unpackhi 2 ymm3 ymm4 in
  let ymm11 := mm256_permute4x64_epi64 (mm256_unpacklo 4 ymm5 ymm6) 0xd8 in
  let ymm12 := mm256_permute4x64_epi64 (mm256_unpackhi 4 ymm5 ymm6) 0xd8 in
  let ymm15 := mm256_permute4x64_epi64 (mm256_unpacklo 4 ymm9 ymm10) 0xd8 in
  let ymm16 := mm256_permute4x64_epi64 (mm256_unpackhi 4 ymm9 ymm10) 0xd8 in
  (low 16 ymm11 = wm_cell 8 h 0 /\ high 16 ymm11 = wm_cell 8 h 1) /\
  (low 16 ymm12 = wm_cell 8 h 2 /\ high 16 ymm12 = wm_cell 8 h 3) /\
  (low 16 ymm15 = wm_cell 8 h 4 /\ high 16 ymm15 = wm_cell 8 h 5) /\
  (low 16 ymm16 = wm_cell 8 h 6 /\ high 16 ymm16 = wm_cell 8 h 7).
Proof. repeat split. Qed.
Lemma low_cell h r : low 16 (wm_cell 8 h r) = wm_cell 8 h r.
Proof. reflexivity. Qed.

Lemma avx_block_correct f kreg : side_fmt_ok f -> 0 < kreg ->
  sf_cw f = 8 -> sf_cd f = 2 -> sf_order f = CWidthMajor -> sf_kind f = FUint8 ->
  block_correct f kreg 16 avx_block.
Proof.
  intros Hf Hreg Ecw Ecd Eo Es src sw b g s P data sums cds cws done Ho _ Hsw Hsd Hsrc H1 [q8 Hq8] H2 H3 [j Hj] H4 HB HS HP.
  rewrite Ecw in *. unfold sf_cellsize in *. rewrite Ecw, Ecd in *.
  assert (Hg : forall w d, 0 <= w < sf_width f -> 0 <= d < kreg -> in_min f <= g w d <= in_min f + 255) by (intros w d Hw Hd; apply (Hsrc w d Hw Hd)).
  assert (EW : sf_width f = sf_cells f * 8) by (unfold sf_width; rewrite Ecw; reflexivity).
  assert (Hjc : 0 <= j < sf_cells f) by lia.
  set (h := fun i k => g (cws + Z.of_nat i) (cds + Z.of_nat k)).
  unfold avx_block. cbv zeta.
  rewrite (line_ok f kreg src g cws cds 0 _ 16 Ho Hsrc) by lia. cbn [bind].
  rewrite (line_ok f kreg src g cws cds 1 _ 16 Ho Hsrc) by lia. cbn [bind].
  rewrite (line_ok f kreg src g cws cds 2 _ 16 Ho Hsrc) by lia. cbn [bind].
  rewrite (line_ok f kreg src g cws cds 3 _ 16 Ho Hsrc) by lia. cbn [bind].
  rewrite (line_ok f kreg src g cws cds 4 _ 16 Ho Hsrc) by lia. cbn [bind].
  rewrite (line_ok f kreg src g cws cds 5 _ 16 Ho Hsrc) by lia. cbn [bind].
  rewrite (line_ok f kreg src g cws cds 6 _ 16 Ho Hsrc) by lia. cbn [bind].
  rewrite (line_ok f kreg src g cws cds 7 _ 16 Ho Hsrc) by lia. cbn [bind].
  unfold cvtepu8_epi16.
  change (map (fun k => g (cws + 0) (cds + Z.of_nat k)) (seq 0 16)) with (map (h 0%nat) (seq 0 16)).
  change (map (fun k => g (cws + 1) (cds + Z.of_nat k)) (seq 0 16)) with (map (h 1%nat) (seq 0 16)).
  change (map (fun k => g (cws + 2) (cds + Z.of_nat k)) (seq 0 16)) with (map (h 2%nat) (seq 0 16)).
  change (map (fun k => g (cws + 3) (cds + Z.of_nat k)) (seq 0 16)) with (map (h 3%nat) (seq 0 16)).
  change (map (fun k => g (cws + 4) (cds + Z.of_nat k)) (seq 0 16)) with (map (h 4%nat) (seq 0 16)).
  change (map (fun k => g (cws + 5) (cds + Z.of_nat k)) (seq 0 16)) with (map (h 5%nat) (seq 0 16)).
  change (map (fun k => g (cws + 6) (cds + Z.of_nat k)) (seq 0 16)) with (map (h 6%nat) (seq 0 16)).
  change (map (fun k => g (cws + 7) (cds + Z.of_nat k)) (seq 0 16)) with (map (h 7%nat) (seq 0 16)).
  destruct (avx_cells h) as ((E0 & E1) & (E2 & E3) & (E4 & E5) & (E6 & E7)). cbv zeta in E0, E1, E2, E3, E4, E5, E6, E7.
  rewrite E0, E1, E2, E3, E4, E5, E6, E7. clear E0 E1 E2 E3 E4 E5 E6 E7. rewrite !low_cell.
  assert (Hh : forall i k, (i < 8)%nat -> h i k = g (j * Z.of_nat 8 + Z.of_nat i) (q8 * 8 * 2 + Z.of_nat k)).
  { intros i k _. unfold h. f_equal; lia. }
  assert (Hhr : forall i k, (i < 8)%nat -> (k < 16)%nat -> 0 <= h i k <= 255).
  { intros i k Hi Hk. specialize (Hg (cws + Z.of_nat i) (cds + Z.of_nat k) ltac:(lia) ltac:(lia)). unfold in_min in Hg. rewrite Es in Hg. unfold h. lia. }
  destruct (wm_cell_store f kreg g (pk_pos b) (pk_data b) done data 8 h 0 j (q8 * 8) Hf Ecw Ecd Eo Es Hg Hjc ltac:(lia) ltac:(lia) Hh HB) as (d1 & E1 & B1).
  destruct (wm_cell_store f kreg g (pk_pos b) (pk_data b) _ d1 8 h 1 j (q8 * 8) Hf Ecw Ecd Eo Es Hg Hjc ltac:(lia) ltac:(lia) Hh B1) as (d2 & E2 & B2).
  destruct (wm_cell_store f kreg g (pk_pos b) (pk_data b) _ d2 8 h 2 j (q8 * 8) Hf Ecw Ecd Eo Es Hg Hjc ltac:(lia) ltac:(lia) Hh B2) as (d3 & E3 & B3).
  destruct (wm_cell_store f kreg g (pk_pos b) (pk_data b) _ d3 8 h 3 j (q8 * 8) Hf Ecw Ecd Eo Es Hg Hjc ltac:(lia) ltac:(lia) Hh B3) as (d4 & E4 & B4).
  destruct (wm_cell_store f kreg g (pk_pos b) (pk_data b) _ d4 8 h 4 j (q8 * 8) Hf Ecw Ecd Eo Es Hg Hjc ltac:(lia) ltac:(lia) Hh B4) as (d5 & E5 & B5).
  destruct (wm_cell_store f kreg g (pk_pos b) (pk_data b) _ d5 8 h 5 j (q8 * 8) Hf Ecw Ecd Eo Es Hg Hjc ltac:(lia) ltac:(lia) Hh B5) as (d6 & E6 & B6).
  destruct (wm_cell_store f kreg g (pk_pos b) (pk_data b) _ d6 8 h 6 j (q8 * 8) Hf Ecw Ecd Eo Es Hg Hjc ltac:(lia) ltac:(lia) Hh B6) as (d7 & E7 & B7).
  destruct (wm_cell_store f kreg g (pk_pos b) (pk_data b) _ d7 8 h 7 j (q8 * 8) Hf Ecw Ecd Eo Es Hg Hjc ltac:(lia) ltac:(lia) Hh B7) as (d8 & E8 & B8).
  erewrite (f_equal (fun a => store data a _)); [rewrite E1|rewrite EW, Hq8, Hj; cbn [Z.of_nat Pos.of_succ_nat Pos.succ]; ring]. cbn [bind].
  erewrite (f_equal (fun a => store d1 a _)); [rewrite E2|rewrite EW, Hq8, Hj; cbn [Z.of_nat Pos.of_succ_nat Pos.succ]; ring]. cbn [bind].
  erewrite (f_equal (fun a => store d2 a _)); [rewrite E3|rewrite EW, Hq8, Hj; cbn [Z.of_nat Pos.of_succ_nat Pos.succ]; ring]. cbn [bind].
  erewrite (f_equal (fun a => store d3 a _)); [rewrite E4|rewrite EW, Hq8, Hj; cbn [Z.of_nat Pos.of_succ_nat Pos.succ]; ring]. cbn [bind].
  erewrite (f_equal (fun a => store d4 a _)); [rewrite E5|rewrite EW, Hq8, Hj; cbn [Z.of_nat Pos.of_succ_nat Pos.succ]; ring]. cbn [bind].
  erewrite (f_equal (fun a => store d5 a _)); [rewrite E6|rewrite EW, Hq8, Hj; cbn [Z.of_nat Pos.of_succ_nat Pos.succ]; ring]. cbn [bind].
  erewrite (f_equal (fun a => store d6 a _)); [rewrite E7|rewrite EW, Hq8, Hj; cbn [Z.of_nat Pos.of_succ_nat Pos.succ]; ring]. cbn [bind].
  erewrite (f_equal (fun a => store d7 a _)); [rewrite E8|rewrite EW, Hq8, Hj; cbn [Z.of_nat Pos.of_succ_nat Pos.succ]; ring]. cbn [bind].
  rewrite (BS_load f g s sw (pk_sums b) P sums cws 8 HS H3 ltac:(lia)). cbn [bind].
  change (repeat 1 16) with (repeat 1 (2 * 8)).
  rewrite !madd_cell by (intros i Hi; split; apply Hhr; lia).
  unfold add_epi32. rewrite !map2_map.
  destruct (BS_store f g s sw (pk_sums b) P (cds + 16) sums cws
    (map (fun i => wrapS 32 (s (cws + Z.of_nat i) + bsum f g (cws + Z.of_nat i) 0 (cds + 16))) (seq 0 8)) HS H3) as (sums' & Es' & HS').
  { rewrite map_length, seq_length. lia. }
  { intros i Hi. rewrite map_length, seq_length in Hi. rewrite nth_map_seq by lia. reflexivity. }
  exists d8, sums'. split; [|split].
  - match goal with |- bind (store sums (sw + cws) ?l) _ = _ =>
      replace l with (map (fun i => wrapS 32 (s (cws + Z.of_nat i) + bsum f g (cws + Z.of_nat i) 0 (cds + 16))) (seq 0 8)) end.
    { rewrite Es'. reflexivity. }
    apply map_ext_in. intros i Hi. apply in_seq in Hi. symmetry.
    repeat first [rewrite wrapS_add_l by lia | rewrite <- Z.add_assoc]. f_equal.
    rewrite HP by lia. unfold bsum. rewrite (sumZ_split _ 0 cds (cds + 16)) by lia. rewrite sumZ_16.
    unfold bval, sf_zp. rewrite Es. unfold h. cbn [Nat.mul Nat.add Z.of_nat Pos.of_succ_nat Pos.succ]. ring.
  - refine (BD_ext f kreg g (pk_pos b) (pk_data b) _ _ _ _ B8). cbv beta. intros w d Hw Hd [H|[HH1 HH2]]; [tauto|].
    clear - HH1 HH2 Hj Hq8.
    assert ((d - cds < 2 \/ 2 <= d - cds < 4 \/ 4 <= d - cds < 6 \/ 6 <= d - cds < 8) \/
            (8 <= d - cds < 10 \/ 10 <= d - cds < 12 \/ 12 <= d - cds < 14 \/ 14 <= d - cds < 16)) as [[A|[A|[A|A]]]|[A|[A|[A|A]]]] by lia;
      [do 7 left; right|do 6 left; right|do 5 left; right|do 4 left; right|do 3 left; right|do 2 left; right|left; right|right]; lia.
  - rewrite map_length, seq_length in HS'. exact HS'.
Qed.

Lemma is_format_spec cw cd o sgn f : is_format cw cd o sgn f = true ->
  sf_cw f = cw /\ sf_cd f = cd /\ sf_order f = o /\ sf_kind f = sgn.
Proof.
  unfold is_format. rewrite !Bool.andb_true_iff. intros [[[A B] C] D].
  destruct (sf_kind f), sgn; try discriminate C; destruct (sf_order f), o; try discriminate D; repeat split; trivial; lia.
Qed.

Lemma sse_Pack4x2_correct m f kreg src sw b g s :
  side_fmt_ok f -> 0 < kreg -> (8 | kreg) -> is_format 4 2 CWidthMajor FUint8 f = true ->
  sm_order src = SWidthMajor ->
  pack_correct_at m f kreg (sse_Pack4x2 f kreg) src sw b g s.
Proof.
  intros Hf Hreg H8 Hi Ho. apply is_format_spec in Hi. destruct Hi as (Ecw & Ecd & Eo & Es).
  intros _ Hsw Hsd Hsrc Hd0 Hs1 Hm.
  destruct (x86_loops_correct m f kreg sse_block 8 4 (fun _ => True) Hf Hreg ltac:(lia) H8 ltac:(lia)
    (sse_block_correct f kreg Hf Hreg Ecw Ecd Eo Es) src sw b g s Ho I Hsw Hsd Hsrc Hd0 Hs1 Hm) as (b' & E & A & B & C).
  exists b'. split; [exact E|]. apply block_done; assumption.
Qed.
Lemma avx_Pack8x2_correct m f kreg src sw b g s :
  side_fmt_ok f -> 0 < kreg -> (16 | kreg) -> is_format 8 2 CWidthMajor FUint8 f = true ->
  sm_order src = SWidthMajor ->
  pack_correct_at m f kreg (avx_Pack8x2 f kreg) src sw b g s.
Proof.
  intros Hf Hreg H8 Hi Ho. apply is_format_spec in Hi. destruct Hi as (Ecw & Ecd & Eo & Es).
  intros _ Hsw Hsd Hsrc Hd0 Hs1 Hm.
  destruct (x86_loops_correct m f kreg avx_block 16 8 (fun _ => True) Hf Hreg ltac:(lia) H8 ltac:(lia)
    (avx_block_correct f kreg Hf Hreg Ecw Ecd Eo Es) src sw b g s Ho I Hsw Hsd Hsrc Hd0 Hs1 Hm) as (b' & E & A & B & C).
  exists b'. split; [exact E|]. apply block_done; assumption.
Qed.

(* what was packed depends on the call only *)
Lemma pack_at_ext m f kreg p q src sw b g s : q src sw b = p src sw b ->
  pack_correct_at m f kreg p src sw b g s -> pack_correct_at m f kreg q src sw b g s.
Proof.
  intros E H A0 A1 A2 A3 A4 A5 A6. destruct (H A0 A1 A2 A3 A4 A5 A6) as (b' & E' & R).
  exists b'. split; [rewrite E; exact E'|exact R].
Qed.

Lemma sse_packer_correct m f kreg : side_fmt_ok f -> 0 < kreg -> (8 | kreg) -> (sf_cd f | kreg) ->
  pack_correct m f kreg (sse_packer m f kreg).
Proof.
  intros Hf Hreg H8 Hcd src sw b g s.
  pose proof (Pack_correct m f kreg Hf Hreg Hcd src sw b g s) as HP.
  destruct (sm_order src) eqn:Ho, (is_format 4 2 CWidthMajor FUint8 f) eqn:Ei.
  all: try (refine (pack_at_ext m f kreg (Pack m f kreg) _ src sw b g s _ HP); unfold sse_packer; rewrite Ho; try rewrite Ei; reflexivity).
  all: refine (pack_at_ext m f kreg (sse_Pack4x2 f kreg) _ src sw b g s _ _);
    [unfold sse_packer; rewrite Ho, Ei; reflexivity|apply sse_Pack4x2_correct; assumption].
Qed.
Lemma avx_packer_correct m f kreg : side_fmt_ok f -> 0 < kreg -> (16 | kreg) -> (sf_cd f | kreg) ->
  pack_correct m f kreg (avx_packer m f kreg).
Proof.
  intros Hf Hreg H16 Hcd src sw b g s.
  pose proof (Pack_correct m f kreg Hf Hreg Hcd src sw b g s) as HP.
  assert (H8 : (8 | kreg)) by (destruct H16 as [k Hk]; exists (2 * k); lia).
  destruct (sm_order src) eqn:Ho.
  2: { refine (pack_at_ext m f kreg (Pack m f kreg) _ src sw b g s _ HP). unfold avx_packer. rewrite Ho. reflexivity. }
  destruct (is_format 8 2 CWidthMajor FUint8 f) eqn:Ei.
  { refine (pack_at_ext m f kreg (avx_Pack8x2 f kreg) _ src sw b g s _ _);
    [unfold avx_packer; rewrite Ho, Ei; reflexivity|apply avx_Pack8x2_correct; assumption]. }
  destruct (is_format 4 2 CWidthMajor FUint8 f) eqn:Ei4.
  { refine (pack_at_ext m f kreg (sse_Pack4x2 f kreg) _ src sw b g s _ _);
    [unfold avx_packer; rewrite Ho, Ei, Ei4; reflexivity|apply sse_Pack4x2_correct; assumption]. }
  refine (pack_at_ext m f kreg (Pack m f kreg) _ src sw b g s _ HP). unfold avx_packer. rewrite Ho, Ei, Ei4. reflexivity.
Qed.
