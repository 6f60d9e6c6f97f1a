From Verif Require Import Base BaseLemmas CommonModel CommonProofs PackModel PackSpec PackProofs PackBlock PackSimdModel PackSimdProofs.

Section Neon.
Variables (f : side_fmt) (src : side_map) (g : Z -> Z -> Z) (s : Z -> Z) (pos sw : Z) (data0 sums0 : mem).
Hypothesis Hf : side_fmt_ok f.
Hypothesis Ho : sm_order src = SWidthMajor.
Hypothesis Hsrc : forall w d, 0 <= w < sf_width f -> 0 <= d < 16 -> sm_get src w d = Some (g w d) /\ in_min f <= g w d <= in_min f + 255.

Lemma Hg16 w d : 0 <= w < sf_width f -> 0 <= d < 16 -> in_min f <= g w d <= in_min f + 255.
Proof. clear - Hsrc. intros Hw Hd. apply Hsrc; assumption. Qed.

Definition line (i : Z) : list Z := map (fun k => g i (Z.of_nat k)) (seq 0 16).
Lemma neon_lines_ok n : n <= sf_width f -> exists r, neon_lines src n = Some r /\ forall i, 0 <= i < n -> r i = line i.
Proof.
  clear - Ho Hsrc. intros Hn. unfold neon_lines.
  destruct (Z.le_gt_cases n 0) as [H0|H0].
  { rewrite for_step_empty by lia. eexists. split; [reflexivity|]. intros i Hi. lia. }
  destruct (for_step_inv1 (fun i (r : regs) => forall j, 0 <= j < i -> r j = line j) 0 n
    (fun i r => let* l := load (sm_mem src) (sm_base src + i * sm_stride src) 16 in Some (set_reg r i l)) (fun _ => []))
    as (r & E & H).
  - lia.
  - intros j Hj. lia.
  - intros i r Hi IH.
    assert (El : load (sm_mem src) (sm_base src + i * sm_stride src) 16 = Some (line i)).
    { apply load_ok. intros k Hk. destruct (Hsrc i (Z.of_nat k) ltac:(lia) ltac:(lia)) as [E _]. rewrite <- E.
      unfold sm_get, rd. f_equal. unfold sm_addr, sm_depth_stride, sm_width_stride. rewrite Ho. ring. }
    rewrite El. cbn [bind]. eexists. split; [reflexivity|].
    intros j Hj. unfold set_reg. destruct (Z.eqb_spec j i) as [->|]; [reflexivity|apply IH; lia].
  - exists r. split; [exact E|exact H].
Qed.

(* ---- storing: rows of cells ---- *)
Hypothesis Ecw : sf_cw f = 4.
Hypothesis Ecd : sf_cd f = 2.
Hypothesis Es : sf_kind f = FUint8.

Lemma neon_row (done : Z -> Z -> Prop) data ptr q (cellv : Z -> list Z) :
  BD f 16 g pos data0 done data -> 0 <= q < 8 -> ptr = pos + q * sf_cells f * 8 ->
  (forall c, 0 <= c < sf_cells f -> length (cellv c) = 8%nat /\
    forall w d, 0 <= w < 4 -> 0 <= d < 2 -> nth (Z.to_nat (off f w d)) (cellv c) 0 = g (c * 4 + w) (q * 2 + d)) ->
  exists data', for_step 0 (sf_cells f) 1 (fun cell st =>
          let '(dst_ptr, data) := st in
          let* data := store data dst_ptr (cellv cell) in
          Some (dst_ptr + 8, data)) (ptr, data) = Some (pos + (q + 1) * sf_cells f * 8, data') /\
    BD f 16 g pos data0 (fun w d => done w d \/ q * 2 <= d < q * 2 + 2) data'.
Proof.
  clear - Hf Hsrc Ecw Ecd Es. intros HB Hq -> Hc. destruct (f_pos f Hf) as (Fcw&Fcd&Fcells&Fw&Fcs).
  assert (EW : sf_width f = sf_cells f * 4) by (unfold sf_width; rewrite Ecw; reflexivity).
  match goal with |- exists data', for_step _ _ _ ?b ?s0 = _ /\ _ =>
    destruct (for_step_inv1 (fun c (st : Z * mem) => fst st = pos + (q * sf_cells f + c) * 8 /\
      BD f 16 g pos data0 (fun w d => done w d \/ (w < c * 4 /\ q * 2 <= d < q * 2 + 2)) (snd st)) 0 (sf_cells f) b s0) as (st & E & A & B) end.
  - lia.
  - cbn [fst snd]. split; [ring|]. refine (BD_ext f 16 g pos data0 _ _ _ _ HB). cbv beta. intros w d Hw Hd [H|H]; [exact H|lia].
  - intros c [ptr dat] Hcc [A B]. cbn [fst snd] in A, B. subst ptr. destruct (Hc c Hcc) as [Hl Hn].
    destruct (BD_cell f 16 g pos data0 Hf _ dat q c (cellv c) B Hcc) as (data' & E & HD).
    + lia.
    + rewrite Ecd. lia.
    + rewrite Hl. unfold sf_cellsize. rewrite Ecw, Ecd. reflexivity.
    + rewrite Ecw, Ecd. intros w d Hw Hd. rewrite Hn by assumption. symmetry.
      apply (byte_bval f 16 g Hg16); [exact Es|lia|lia].
    + unfold sf_cellsize in E. rewrite Ecw, Ecd in E. change (4 * 2) with 8 in E. rewrite E. cbn [bind].
      eexists. split; [reflexivity|]. cbn [fst snd]. split; [ring|].
      rewrite Ecw, Ecd in HD.
      refine (BD_ext f 16 g pos data0 _ _ _ _ HD). cbv beta. intros w d Hw Hd [H|[H1 H2]]; [left; left; exact H|].
      destruct (Z_lt_ge_dec w (c * 4)); [left; right; lia|right; lia].
  - exists (snd st). destruct st as [p dat]. cbn [fst snd] in *. split; [rewrite E, A; f_equal; f_equal; ring|].
    refine (BD_ext f 16 g pos data0 _ _ _ _ B). cbv beta. intros w d Hw Hd [H|H]; [left; exact H|right; lia].
Qed.

Lemma neon_store_ok k lines (cellv : Z -> Z -> list Z) :
  (forall outer inner c, (outer = 0 \/ outer = 1) -> (inner = 0 \/ inner = 1) -> 0 <= c < sf_cells f ->
     low 8 (val (intertwined_4x k lines c outer) inner) = cellv (4 * outer + 2 * inner) c /\
     high 8 (val (intertwined_4x k lines c outer) inner) = cellv (4 * outer + 2 * inner + 1) c) ->
  (forall q c, 0 <= q < 8 -> 0 <= c < sf_cells f -> length (cellv q c) = 8%nat /\
    forall w d, 0 <= w < 4 -> 0 <= d < 2 -> nth (Z.to_nat (off f w d)) (cellv q c) 0 = g (c * 4 + w) (q * 2 + d)) ->
  (forall w d, 0 <= w < sf_width f -> 0 <= d < 16 -> exists v, data0 (pos + ci f w d) = Some v) ->
  exists ptr data, neon_store k (sf_cells f) lines data0 pos = Some (ptr, data) /\
    BD f 16 g pos data0 (fun _ _ => True) data.
Proof.
  clear - Hf Hsrc Ecw Ecd Es. intros Hi Hc Hd0. unfold neon_store.
  match goal with |- exists ptr data, for_step _ _ _ ?b ?s0 = _ /\ _ =>
    destruct (for_step_inv1 (fun o (st : Z * mem) => fst st = pos + (4 * o) * sf_cells f * 8 /\
      BD f 16 g pos data0 (fun w d => d < 8 * o) (snd st)) 0 2 b s0) as (st & E & A & B) end.
  - lia.
  - cbn [fst snd]. split; [ring|]. apply (BD_ext f 16 g pos data0 (fun _ _ => False)); [intros w d Hw Hd H; lia|].
    apply BD_init. exact Hd0.
  - intros o [p dat] Hoo [A B]. cbn [fst snd] in A, B. subst p.
    match goal with |- exists s1, for_step _ _ _ ?b ?s0 = _ /\ _ =>
      destruct (for_step_inv1 (fun i (st : Z * mem) => fst st = pos + (4 * o + 2 * i) * sf_cells f * 8 /\
        BD f 16 g pos data0 (fun w d => d < 8 * o + 4 * i) (snd st)) 0 2 b s0) as (st & E & A2 & B2) end.
    + lia.
    + cbn [fst snd]. split; [ring|]. refine (BD_ext f 16 g pos data0 _ _ _ _ B). cbv beta. intros w d Hw Hd H. lia.
    + intros i [p dat1] Hii [A1 B1]. cbn [fst snd] in A1, B1.
      destruct (neon_row _ dat1 p (4 * o + 2 * i) (fun c => low 8 (val (intertwined_4x k lines c o) i)) B1) as (dat2 & E2 & B2);
        [lia|exact A1| |].
      { intros c Hcc. rewrite (proj1 (Hi o i c ltac:(lia) ltac:(lia) Hcc)). apply Hc; lia. }
      rewrite E2. cbn [bind].
      destruct (neon_row _ dat2 (pos + (4 * o + 2 * i + 1) * sf_cells f * 8) (4 * o + 2 * i + 1)
        (fun c => high 8 (val (intertwined_4x k lines c o) i)) B2) as (dat3 & E3 & B3); [lia|reflexivity| |].
      { intros c Hcc. rewrite (proj2 (Hi o i c ltac:(lia) ltac:(lia) Hcc)). apply Hc; lia. }
      rewrite E3. eexists. split; [reflexivity|]. cbn [fst snd]. split; [f_equal; ring|].
      refine (BD_ext f 16 g pos data0 _ _ _ _ B3). cbv beta. intros w d Hw Hd H. lia.
    + exists st. split; [exact E|]. split; [rewrite A2; ring|].
      refine (BD_ext f 16 g pos data0 _ _ _ _ B2). cbv beta. intros w d Hw Hd H. lia.
  - destruct st as [p dat]. exists p, dat. split; [exact E|]. cbn [fst snd] in *.
    refine (BD_ext f 16 g pos data0 _ _ _ _ B). cbv beta. intros w d Hw Hd H. lia.
Qed.

(* ---- the sums ---- *)
Lemma neon_sums_ok (cell_sum : Z -> list Z) :
  (forall c, 0 <= c < sf_cells f ->
     cell_sum c = map (fun i => sumZ (g (4 * c + Z.of_nat i)) 0 16) (seq 0 4)) ->
  BS f g s sw sums0 (fun _ => 0) sums0 ->
  exists sums, neon_sums (sf_cells f) cell_sum sums0 sw = Some sums /\ BS f g s sw sums0 (fun _ => 16) sums.
Proof.
  clear - Hf Ecw Es. intros Hc HS. destruct (f_pos f Hf) as (Fcw&Fcd&Fcells&Fw&Fcs).
  assert (EW : sf_width f = sf_cells f * 4) by (unfold sf_width; rewrite Ecw; reflexivity).
  unfold neon_sums.
  match goal with |- exists sums, for_step _ _ _ ?b ?s0 = _ /\ _ =>
    destruct (for_step_inv1 (fun c (st : mem) => BS f g s sw sums0 (fun w => if w <? 4 * c then 16 else 0) st) 0 (sf_cells f) b s0) as (st & E & A) end.
  - lia.
  - refine (BS_ext f g s sw sums0 _ _ _ _ HS). intros w Hw. replace (w <? 4 * 0) with false by lia. reflexivity.
  - intros c sums Hcc IH.
    rewrite (BS_load f g s sw sums0 _ sums (4 * c) 4 IH ltac:(lia) ltac:(lia)). cbn [bind].
    rewrite Hc by exact Hcc. unfold vaddq_s32. rewrite map2_map.
    destruct (BS_store f g s sw sums0 _ 16 sums (4 * c)
      (map (fun i => wrapS 32 (s (4 * c + Z.of_nat i) + bsum f g (4 * c + Z.of_nat i) 0 16)) (seq 0 4)) IH ltac:(lia)) as (sums' & Es' & HS').
    { rewrite map_length, seq_length. lia. }
    { intros i Hi. rewrite map_length, seq_length in Hi. rewrite nth_map_seq by lia. reflexivity. }
    exists sums'. split.
    + rewrite <- Es'. f_equal. apply map_ext_in. intros i Hi. apply in_seq in Hi.
      replace (4 * c + Z.of_nat i <? 4 * c) with false by lia. rewrite wrapS_add_r by lia. f_equal.
      unfold bsum, bval, sf_zp. rewrite Es. rewrite (sumZ_empty (fun d => g (4 * c + Z.of_nat i) d - 0) 0 0) by lia.
      rewrite (sumZ_ext (g (4 * c + Z.of_nat i)) (fun d => g (4 * c + Z.of_nat i) d - 0) 0 16) by (intros; ring). rewrite Z.add_0_r. apply Z.add_comm.
    + rewrite map_length, seq_length in HS'. refine (BS_ext f g s sw sums0 _ _ _ _ HS'). cbv beta. intros w Hw.
      destruct ((4 * c <=? w) && (w <? 4 * c + Z.of_nat 4)) eqn:E1, (w <? 4 * c) eqn:E2, (w <? 4 * (c + 1)) eqn:E3; trivial; lia.
  - exists st. split; [exact E|]. refine (BS_ext f g s sw sums0 _ _ _ _ A). cbv beta. intros w Hw.
    replace (w <? 4 * sf_cells f) with true by lia. reflexivity.
Qed.
End Neon.

(* ---- the cells ---- *)
Definition dm_cell (h : nat -> nat -> Z) (r : nat) : list Z :=
  map (fun i => h i (2 * r)%nat) (seq 0 4) ++ map (fun i => h i (2 * r + 1)%nat) (seq 0 4).
Definition quad (h : nat -> nat -> Z) (lines : regs) (c : Z) : Prop :=
  forall i, (i < 4)%nat -> lines (4 * c + Z.of_nat i) = map (h i) (seq 0 16).

Lemma quad_lines h lines c : quad h lines c ->
  lines (4 * c) = map (h 0%nat) (seq 0 16) /\ lines (4 * c + 1) = map (h 1%nat) (seq 0 16) /\
  lines (4 * c + 2) = map (h 2%nat) (seq 0 16) /\ lines (4 * c + 3) = map (h 3%nat) (seq 0 16).
Proof.
  intros H. rewrite <- (H 0%nat), <- (H 1%nat), <- (H 2%nat), <- (H 3%nat) by lia.
  rewrite Z.add_0_r. repeat split.
Qed.
Lemma dm_cells h lines c outer inner : quad h lines c -> (outer = 0 \/ outer = 1) -> (inner = 0 \/ inner = 1) ->
  val (intertwined_4x 1 lines c outer) inner =
  dm_cell h (Z.to_nat (4 * outer + 2 * inner)) ++ dm_cell h (Z.to_nat (4 * outer + 2 * inner + 1)).
Proof.
  intros H Ho Hi. destruct (quad_lines h lines c H) as (E0 & E1 & E2 & E3). unfold intertwined_4x.
  rewrite E0, E1, E2, E3. destruct Ho as [-> | ->], Hi as [-> | ->]; reflexivity.
Qed.
Lemma wm_cells h lines c outer inner : quad h lines c -> (outer = 0 \/ outer = 1) -> (inner = 0 \/ inner = 1) ->
  val (intertwined_4x 2 lines c outer) inner =
  wm_cell 4 h (Z.to_nat (4 * outer + 2 * inner)) ++ wm_cell 4 h (Z.to_nat (4 * outer + 2 * inner + 1)).
Proof.
  intros H Ho Hi. destruct (quad_lines h lines c H) as (E0 & E1 & E2 & E3). unfold intertwined_4x.
  rewrite E0, E1, E2, E3. destruct Ho as [-> | ->], Hi as [-> | ->]; reflexivity.
Qed.
Lemma dm_cell_nth h r w d : 0 <= w < 4 -> 0 <= d < 2 ->
  nth (Z.to_nat (w + d * 4)) (dm_cell h r) 0 = h (Z.to_nat w) (2 * r + Z.to_nat d)%nat.
Proof.
  intros Hw Hd.
  assert (w = 0 \/ w = 1 \/ w = 2 \/ w = 3) as [-> |[-> |[-> | ->]]] by lia;
  assert (d = 0 \/ d = 1) as [-> | ->] by lia; cbn [Z.mul Z.add Z.to_nat Pos.to_nat Pos.iter_op Pos.add Nat.add];
  unfold dm_cell; rewrite ?Nat.add_0_r; reflexivity.
Qed.

(* ---- the sums of a cell ---- *)
Section Sums.
Variable h : nat -> nat -> Z.
Hypothesis Hh : forall i k, (i < 4)%nat -> (k < 16)%nat -> 0 <= h i k <= 255.

Definition hsum (i : nat) : Z :=
  h i 0%nat + h i 1%nat + h i 2%nat + h i 3%nat + h i 4%nat + h i 5%nat + h i 6%nat + h i 7%nat +
  h i 8%nat + h i 9%nat + h i 10%nat + h i 11%nat + h i 12%nat + h i 13%nat + h i 14%nat + h i 15%nat.

Lemma depth_major_sum_ok lines c : quad h lines c -> depth_major_sum lines c = map hsum (seq 0 4).
Proof.
  intros H. unfold depth_major_sum. cbv zeta.
  change (0 / 2) with 0. change (1 / 2) with 0. change (2 / 2) with 1. change (3 / 2) with 1.
  change (0 mod 2) with 0. change (1 mod 2) with 1. change (2 mod 2) with 0. change (3 mod 2) with 1.
  rewrite !(dm_cells h lines c) by (assumption || lia).
  set (p := fun a b => wrapU 16 (a + b)). set (q := fun a b => wrapS 32 (wrapU 32 (a + b))).
  transitivity (map (fun i =>
    wrapS 32 (wrapS 32 (q (p (h i 0%nat) (h i 2%nat)) (p (h i 1%nat) (h i 3%nat)) +
                        q (p (h i 4%nat) (h i 6%nat)) (p (h i 5%nat) (h i 7%nat))) +
              wrapS 32 (q (p (h i 8%nat) (h i 10%nat)) (p (h i 9%nat) (h i 11%nat)) +
                        q (p (h i 12%nat) (h i 14%nat)) (p (h i 13%nat) (h i 15%nat))))) (seq 0 4)); [reflexivity|].
  apply map_ext_in. intros i Hi. apply in_seq in Hi.
  assert (Hb : forall k, (k < 16)%nat -> 0 <= h i k <= 255) by (intros k Hk; apply Hh; lia).
  assert (Hp : forall a b, 0 <= a <= 255 -> 0 <= b <= 255 -> p a b = a + b).
  { intros a b Ha Hb'. unfold p, wrapU. apply Z.mod_small. change (2 ^ 16) with 65536. lia. }
  assert (Hq : forall a b, 0 <= a <= 510 -> 0 <= b <= 510 -> q a b = a + b).
  { intros a b Ha Hb'. unfold q, wrapU. rewrite Z.mod_small by (change (2 ^ 32) with 4294967296; lia).
    apply wrapS_small; unfold int_min, int_max; cbn; lia. }
  unfold hsum.
  pose proof (Hb 0%nat ltac:(lia)). pose proof (Hb 1%nat ltac:(lia)). pose proof (Hb 2%nat ltac:(lia)). pose proof (Hb 3%nat ltac:(lia)).
  pose proof (Hb 4%nat ltac:(lia)). pose proof (Hb 5%nat ltac:(lia)). pose proof (Hb 6%nat ltac:(lia)). pose proof (Hb 7%nat ltac:(lia)).
  pose proof (Hb 8%nat ltac:(lia)). pose proof (Hb 9%nat ltac:(lia)). pose proof (Hb 10%nat ltac:(lia)). pose proof (Hb 11%nat ltac:(lia)).
  pose proof (Hb 12%nat ltac:(lia)). pose proof (Hb 13%nat ltac:(lia)). pose proof (Hb 14%nat ltac:(lia)). pose proof (Hb 15%nat ltac:(lia)).
  clear Hb. rewrite !Hp by assumption. rewrite !Hq by lia.
  rewrite wrapS_add_l, wrapS_add_r by lia. rewrite wrapS_small by (unfold int_min, int_max; cbn; lia). ring.
Qed.

Lemma width_major_sum_ok lines c : quad h lines c -> width_major_sum lines c = map hsum (seq 0 4).
Proof.
  intros H. unfold width_major_sum. cbv zeta.
  change (2 * 0) with 0. change (2 * 1) with 2. change (0 + 1) with 1. change (2 + 1) with 3.
  change (0 / 2) with 0. change (1 / 2) with 0. change (2 / 2) with 1. change (3 / 2) with 1.
  change (0 mod 2) with 0. change (1 mod 2) with 1. change (2 mod 2) with 0. change (3 mod 2) with 1.
  rewrite !(wm_cells h lines c) by (assumption || lia).
  set (p := fun a b => wrapU 16 (a + b)).
  transitivity (map (fun i => wrapS 32
    (p (p (p (p (h i 0%nat) (h i 1%nat)) (p (h i 4%nat) (h i 5%nat)))
          (p (p (h i 8%nat) (h i 9%nat)) (p (h i 12%nat) (h i 13%nat))))
       (p (p (p (h i 2%nat) (h i 3%nat)) (p (h i 6%nat) (h i 7%nat)))
          (p (p (h i 10%nat) (h i 11%nat)) (p (h i 14%nat) (h i 15%nat)))))) (seq 0 4)); [reflexivity|].
  apply map_ext_in. intros i Hi. apply in_seq in Hi.
  assert (Hb : forall k, (k < 16)%nat -> 0 <= h i k <= 255) by (intros k Hk; apply Hh; lia).
  assert (Hp : forall a b, p a b = (a + b) mod 65536) by reflexivity.
  unfold hsum.
  pose proof (Hb 0%nat ltac:(lia)). pose proof (Hb 1%nat ltac:(lia)). pose proof (Hb 2%nat ltac:(lia)). pose proof (Hb 3%nat ltac:(lia)).
  pose proof (Hb 4%nat ltac:(lia)). pose proof (Hb 5%nat ltac:(lia)). pose proof (Hb 6%nat ltac:(lia)). pose proof (Hb 7%nat ltac:(lia)).
  pose proof (Hb 8%nat ltac:(lia)). pose proof (Hb 9%nat ltac:(lia)). pose proof (Hb 10%nat ltac:(lia)). pose proof (Hb 11%nat ltac:(lia)).
  pose proof (Hb 12%nat ltac:(lia)). pose proof (Hb 13%nat ltac:(lia)). pose proof (Hb 14%nat ltac:(lia)). pose proof (Hb 15%nat ltac:(lia)).
  clear Hb. rewrite !Hp. rewrite <- !Z.add_mod by lia.
  rewrite !Z.mod_small by lia. rewrite wrapS_small by (unfold int_min, int_max; cbn; lia). ring.
Qed.
End Sums.

Lemma neon_Pack4x2_correct m f k cell_sum src sw b g s :
  side_fmt_ok f -> sm_order src = SWidthMajor ->
  (k = 1%nat /\ cell_sum = depth_major_sum /\ is_format 4 2 CDepthMajor FUint8 f = true \/
   k = 2%nat /\ cell_sum = width_major_sum /\ is_format 4 2 CWidthMajor FUint8 f = true) ->
  pack_correct_at m f 16 (neon_Pack4x2 k cell_sum f 16) src sw b g s.
Proof.
  intros Hf Ho Hk _ Hsw Hsd Hsrc Hd0 Hs1 Hm.
  assert (Hfmt : sf_cw f = 4 /\ sf_cd f = 2 /\ sf_kind f = FUint8).
  { destruct Hk as [(_ & _ & E)|(_ & _ & E)]; apply is_format_spec in E; tauto. }
  destruct Hfmt as (Ecw & Ecd & Es). destruct (f_pos f Hf) as (Fcw&Fcd&Fcells&Fw&Fcs).
  assert (EW : sf_width f = sf_cells f * 4) by (unfold sf_width; rewrite Ecw; reflexivity).
  unfold neon_Pack4x2. cbv zeta.
  destruct (neon_lines_ok f src g Ho Hsrc (4 * sf_cells f) ltac:(lia)) as (lines & El & Hl). rewrite El. cbn [bind].
  set (h := fun c i k => g (4 * c + Z.of_nat i) (Z.of_nat k)).
  assert (Hquad : forall c, 0 <= c < sf_cells f -> quad (h c) lines c).
  { intros c Hc i Hi. rewrite Hl by lia. reflexivity. }
  assert (Hhr : forall c i k, 0 <= c < sf_cells f -> (i < 4)%nat -> (k < 16)%nat -> 0 <= h c i k <= 255).
  { intros c i k0 Hc Hi Hk0. unfold h. destruct (Hsrc (4 * c + Z.of_nat i) (Z.of_nat k0) ltac:(lia) ltac:(lia)) as [_ B].
    unfold in_min in B. rewrite Es in B. lia. }
  set (cellv := fun q c => match k with 1%nat => dm_cell (h c) (Z.to_nat q) | _ => wm_cell 4 (h c) (Z.to_nat q) end).
  destruct (neon_store_ok f src g (pk_pos b) (pk_data b) Hf Hsrc Ecw Ecd Es k lines cellv) as (ptr & data & Est & HB).
  - intros outer inner c Hou Hin Hc. unfold cellv. destruct Hk as [(-> & _)|(-> & _)].
    + rewrite (dm_cells (h c)) by auto. split; reflexivity.
    + rewrite (wm_cells (h c)) by auto. split; reflexivity.
  - intros q c Hq Hc. unfold cellv. destruct Hk as [(-> & _ & E)|(-> & _ & E)]; apply is_format_spec in E; destruct E as (_ & _ & Eo & _).
    + split; [reflexivity|]. intros w d Hw Hd. unfold off. rewrite Eo, Ecw. rewrite dm_cell_nth by assumption.
      unfold h. f_equal; lia.
    + split; [reflexivity|]. intros w d Hw Hd. unfold off. rewrite Eo, Ecd. rewrite wm_cell_nth by assumption.
      unfold h. f_equal; lia.
  - exact Hd0.
  - rewrite Est. cbn [bind].
    destruct (neon_sums_ok f g s sw (pk_sums b) Hf Ecw Es (cell_sum lines)) as (sums & Esum & HS).
    + intros c Hc.
      assert (E : cell_sum lines c = map (hsum (h c)) (seq 0 4)).
      { destruct Hk as [(_ & -> & _)|(_ & -> & _)];
          [apply depth_major_sum_ok|apply width_major_sum_ok]; auto. }
      rewrite E. apply map_ext. intros i. change 16 with (0 + 16). rewrite sumZ_16. reflexivity.
    + apply BS_init. exact Hs1.
    + rewrite Esum. cbn [bind]. eexists. split; [reflexivity|].
      apply block_done; [lia|exact HB|exact HS|].
      cbn [pk_pos seek_forward_n_cells]. rewrite Ecd.
      replace (Z.quot (sf_cells f * 16) 2) with (sf_cells f * 8) by (rewrite Z.quot_div_nonneg by lia; lia).
      unfold sf_cellsize. rewrite Ecw, Ecd, EW. ring.
Qed.

(* ---- 16-deep int8 cells ---- *)
Lemma lxor_sign x : 0 <= x <= 255 -> Z.lxor x 0x80 = (x - 128) mod 256.
Proof.
  intros Hx. assert (H : forallb (fun n => Z.lxor (Z.of_nat n) 0x80 =? (Z.of_nat n - 128) mod 256) (seq 0 256) = true) by (vm_compute; reflexivity).
  rewrite forallb_forall in H. specialize (H (Z.to_nat x)). rewrite Z2Nat.id in H by lia.
  apply Z.eqb_eq, H, in_seq. lia.
Qed.
Lemma sign_of_byte x : 0 <= x <= 255 -> wrapS 8 ((x - 128) mod 256) = x - 128.
Proof.
  intros Hx. rewrite <- (wrapS_small 8 (x - 128)) at 2 by (unfold int_min, int_max; cbn; lia).
  apply wrapS_eq_mod; [lia|]. change (2 ^ 8) with 256. apply Z.mod_mod. lia.
Qed.

Section Int8Sums.
Variable v : nat -> nat -> Z.
Hypothesis Hv : forall i k, (k < 16)%nat -> -128 <= v i k <= 127.

Definition p16 (a b : Z) : Z := wrapS 16 (a + b).
Definition int8_sum (i : nat) : Z :=
  wrapS 32 (p16 (p16 (p16 (v i 0%nat) (v i 8%nat)) (p16 (v i 1%nat) (v i 9%nat)))
                (p16 (p16 (v i 2%nat) (v i 10%nat)) (p16 (v i 3%nat) (v i 11%nat))) +
            p16 (p16 (p16 (v i 4%nat) (v i 12%nat)) (p16 (v i 5%nat) (v i 13%nat)))
                (p16 (p16 (v i 6%nat) (v i 14%nat)) (p16 (v i 7%nat) (v i 15%nat)))).

Lemma int8_sum_ok i : int8_sum i = hsum v i.
Proof.
  assert (Hp : forall n a b, 0 <= n <= 2048 -> - n <= a <= n -> - n <= b <= n -> p16 a b = a + b /\ - (2 * n) <= a + b <= 2 * n).
  { intros n a b Hn Ha Hb. split; [|lia]. unfold p16. apply wrapS_small; unfold int_min, int_max; cbn; lia. }
  assert (H1 : forall k l, (k < 16)%nat -> (l < 16)%nat -> p16 (v i k) (v i l) = v i k + v i l /\ - 256 <= v i k + v i l <= 256).
  { intros k l Hk Hl. pose proof (Hv i k Hk). pose proof (Hv i l Hl). apply (Hp 128); lia. }
  assert (H2 : forall a b c d, (a < 16)%nat -> (b < 16)%nat -> (c < 16)%nat -> (d < 16)%nat ->
    p16 (p16 (v i a) (v i b)) (p16 (v i c) (v i d)) = v i a + v i b + (v i c + v i d) /\
    - 512 <= v i a + v i b + (v i c + v i d) <= 512).
  { intros a b c d Ha Hb Hc Hd. destruct (H1 a b Ha Hb) as [-> ?], (H1 c d Hc Hd) as [-> ?]. apply (Hp 256); lia. }
  unfold int8_sum.
  destruct (H2 0 8 1 9)%nat as [-> B1]; [lia..|]. destruct (H2 2 10 3 11)%nat as [-> B2]; [lia..|].
  destruct (H2 4 12 5 13)%nat as [-> B3]; [lia..|]. destruct (H2 6 14 7 15)%nat as [-> B4]; [lia..|].
  rewrite (proj1 (Hp 512 _ _ ltac:(lia) B1 B2)), (proj1 (Hp 512 _ _ ltac:(lia) B3 B4)).
  rewrite wrapS_small by (unfold int_min, int_max; cbn; lia). unfold hsum. ring.
Qed.

Lemma int8_sums4 (old : nat -> Z) (lo hi : Z -> list Z) :
  (forall i, (i < 4)%nat -> lo (Z.of_nat i) = map (v i) (seq 0 8)) ->
  (forall i, (i < 4)%nat -> hi (Z.of_nat i) = map (v i) (seq 8 8)) ->
  let sums2 i := vaddl_s8 (lo i) (hi i) in
  let sums4 i := vpadd_s16 (sums2 (2 * i)) (sums2 (2 * i + 1)) in
  vpadal_s16 (map old (seq 0 4)) (vpadd_s16 (sums4 0) (sums4 1)) = map (fun i => wrapS 32 (old i + hsum v i)) (seq 0 4).
Proof.
  intros Hlo Hhi. cbv beta zeta. change (2 * 0) with (Z.of_nat 0). change (2 * 1) with (Z.of_nat 2).
  change (Z.of_nat 0 + 1) with (Z.of_nat 1). change (Z.of_nat 2 + 1) with (Z.of_nat 3).
  rewrite !Hlo, !Hhi by lia.
  rewrite (map_ext (fun i => wrapS 32 (old i + hsum v i)) (fun i => wrapS 32 (old i + int8_sum i)))
    by (intros i; rewrite int8_sum_ok; reflexivity).
  unfold vpadal_s16, vpadd_s16, vaddl_s8, int8_sum, p16, low, high.
  cbn [map seq map2 pairs app firstn skipn]. reflexivity.
Qed.
Lemma int8_sums2 (old : nat -> Z) (lo hi : Z -> list Z) :
  (forall i, (i < 2)%nat -> lo (Z.of_nat i) = map (v i) (seq 0 8)) ->
  (forall i, (i < 2)%nat -> hi (Z.of_nat i) = map (v i) (seq 8 8)) ->
  let sums2 i := vaddl_s8 (lo i) (hi i) in
  let sums4 i := vpadd_s16 (sums2 (2 * i)) (sums2 (2 * i + 1)) in
  vpadal_s16 (map old (seq 0 2)) (vpadd_s16 (low 4 (sums4 0)) (high 4 (sums4 0))) = map (fun i => wrapS 32 (old i + hsum v i)) (seq 0 2).
Proof.
  intros Hlo Hhi. cbv beta zeta. change (2 * 0) with (Z.of_nat 0).
  change (Z.of_nat 0 + 1) with (Z.of_nat 1).
  rewrite !Hlo, !Hhi by lia.
  rewrite (map_ext (fun i => wrapS 32 (old i + hsum v i)) (fun i => wrapS 32 (old i + int8_sum i)))
    by (intros i; rewrite int8_sum_ok; reflexivity).
  unfold vpadal_s16, vpadd_s16, vaddl_s8, int8_sum, p16, low, high.
  cbn [map seq map2 pairs app firstn skipn]. reflexivity.
Qed.
End Int8Sums.

(* what both int8 packing functions do once the lines are loaded *)
Definition int8_core (f : side_fmt) (bytes lo hi : Z -> list Z) (start_width : Z) (dst : packed) : option packed :=
  let Width := sf_cw f in
  let* data := for_step 0 Width 1 (fun i data => store data (pk_pos dst + 16 * i) (bytes i)) (pk_data dst) in
  let sums2 i := vaddl_s8 (lo i) (hi i) in
  let sums4 i := vpadd_s16 (sums2 (2 * i)) (sums2 (2 * i + 1)) in
  let* sums :=
    if Width =? 4 then
      let* sum := load (pk_sums dst) start_width 4 in
      let sums8 := vpadd_s16 (sums4 0) (sums4 1) in
      store (pk_sums dst) start_width (vpadal_s16 sum sums8)
    else
      let* sum := load (pk_sums dst) start_width 2 in
      let sums8 := vpadd_s16 (low 4 (sums4 0)) (high 4 (sums4 0)) in
      store (pk_sums dst) start_width (vpadal_s16 sum sums8) in
  Some (seek_forward_n_cells f 1 (mk_packed data sums (pk_pos dst) (pk_behind dst))).

Lemma int8_core_correct f (xl lo hi : Z -> list Z) src sw b g s :
  side_fmt_ok f -> (sf_cw f = 2 \/ sf_cw f = 4) -> sf_cd f = 16 -> sf_order f = CWidthMajor -> sf_signed f = true -> sf_cells f = 1 ->
  (forall w d, 0 <= w < sf_width f -> 0 <= d < 16 -> sm_get src w d = Some (g w d) /\ in_min f <= g w d <= in_min f + 255) ->
  (forall w d, 0 <= w < sf_width f -> 0 <= d < 16 -> exists v, pk_data b (pk_pos b + run_index f w d) = Some v) ->
  (forall w, 0 <= w < sf_width f -> pk_sums b (sw + w) = Some (s w) /\ - 2 ^ 31 <= s w <= 2 ^ 31 - 1) ->
  (forall i, 0 <= i < sf_cw f -> xl i = map (fun k => (g i (Z.of_nat k) - sf_zp f) mod 256) (seq 0 16)) ->
  (forall i, 0 <= i < sf_cw f -> lo i = map (fun k => g i (Z.of_nat k) - sf_zp f) (seq 0 8)) ->
  (forall i, 0 <= i < sf_cw f -> hi i = map (fun k => g i (Z.of_nat k) - sf_zp f) (seq 8 8)) ->
  exists b', int8_core f xl lo hi sw b = Some b' /\
    (forall w d, 0 <= w < sf_width f -> 0 <= d < 16 ->
       pk_data b' (pk_pos b + run_index f w d) = Some ((g w d - sf_zp f) mod 256)) /\
    (forall a, (forall w d, 0 <= w < sf_width f -> 0 <= d < 16 -> a <> pk_pos b + run_index f w d) ->
       pk_data b' a = pk_data b a) /\
    (forall w, 0 <= w < sf_width f ->
       pk_sums b' (sw + w) = Some (wrapS 32 (s w + sumZ (fun d => g w d - sf_zp f) 0 16))) /\
    (forall a, a < sw \/ sw + sf_width f <= a -> pk_sums b' a = pk_sums b a) /\
    pk_pos b' = pk_pos b + sf_width f * 16.
Proof.
  intros Hf Ecw Ecd Eo Es Hc1 Hsrc Hd0 Hs1 Hx Hlo0 Hhi0.
  assert (Hzm : in_min f = sf_zp f - 128) by (unfold in_min, sf_zp; unfold sf_signed in Es; destruct (sf_kind f); [discriminate|reflexivity..]).
  assert (EW : sf_width f = sf_cw f) by (unfold sf_width; rewrite Hc1; lia).
  assert (Eci : forall w d, 0 <= w < sf_width f -> 0 <= d < 16 -> ci f w d = 16 * w + d).
  { intros w d Hw Hd. replace w with (0 * sf_cw f + w) at 1 by lia. replace d with (0 * sf_cd f + d) at 1 by lia.
    rewrite ci_cell by (assumption || lia). unfold off. rewrite Eo, Ecd. ring. }
  unfold int8_core. cbv beta zeta.
  match goal with |- exists b', bind (for_step _ _ _ ?bd ?s0) _ = _ /\ _ =>
    destruct (for_step_inv1 (fun i data => BD f 16 g (pk_pos b) (pk_data b) (fun w d => w < i) data) 0 (sf_cw f) bd s0) as (data & Ed & HB) end.
  - lia.
  - apply (BD_ext f 16 g (pk_pos b) (pk_data b) (fun _ _ => False)); [intros w d Hw Hd H; lia|]. apply BD_init. exact Hd0.
  - intros i data Hi IH.
    destruct (BD_store f 16 g (pk_pos b) (pk_data b) Hf _ data (pk_pos b + 16 * i) (xl i) IH) as (data' & E & HD).
    + rewrite Hx by exact Hi. rewrite map_length, seq_length. intros k Hk'. exists i, k.
      split; [lia|]. split; [lia|]. rewrite Eci by lia. split; [lia|].
      rewrite nth_map_seq by lia. rewrite Z2Nat.id by lia. reflexivity.
    + exists data'. split; [exact E|]. rewrite Hx in HD by exact Hi. rewrite map_length, seq_length in HD.
      refine (BD_ext f 16 g (pk_pos b) (pk_data b) _ _ _ _ HD). cbv beta. intros w d Hw Hd H.
      rewrite Eci by lia. destruct (Z_lt_ge_dec w i); [left; assumption|right; lia].
  - rewrite Ed. cbn [bind].
    assert (HS : BS f g s sw (pk_sums b) (fun _ => 0) (pk_sums b)) by (apply BS_init; exact Hs1).
    set (v := fun i k => g (Z.of_nat i) (Z.of_nat k) - sf_zp f).
    assert (Hsum : exists sums,
      (if sf_cw f =? 4 then
        let* sum := load (pk_sums b) sw 4 in
        store (pk_sums b) sw (vpadal_s16 sum (vpadd_s16
          (vpadd_s16 (vaddl_s8 (lo (2 * 0)) (hi (2 * 0)))
                     (vaddl_s8 (lo (2 * 0 + 1)) (hi (2 * 0 + 1))))
          (vpadd_s16 (vaddl_s8 (lo (2 * 1)) (hi (2 * 1)))
                     (vaddl_s8 (lo (2 * 1 + 1)) (hi (2 * 1 + 1))))))
      else
        let* sum := load (pk_sums b) sw 2 in
        store (pk_sums b) sw (vpadal_s16 sum (vpadd_s16
          (low 4 (vpadd_s16 (vaddl_s8 (lo (2 * 0)) (hi (2 * 0)))
                     (vaddl_s8 (lo (2 * 0 + 1)) (hi (2 * 0 + 1)))))
          (high 4 (vpadd_s16 (vaddl_s8 (lo (2 * 0)) (hi (2 * 0)))
                     (vaddl_s8 (lo (2 * 0 + 1)) (hi (2 * 0 + 1)))))))) = Some sums /\
      BS f g s sw (pk_sums b) (fun _ => 16) sums).
    { set (n := Z.to_nat (sf_cw f)).
      set (old := fun i => wrapS 32 (s (0 + Z.of_nat i) + bsum f g (0 + Z.of_nat i) 0 0)).
      assert (Hload : load (pk_sums b) sw n = Some (map old (seq 0 n))).
      { rewrite <- (Z.add_0_r sw) at 1. apply (BS_load f g s sw (pk_sums b) _ (pk_sums b) 0 n HS); unfold n; lia. }
      set (v' := fun i k => if (i <? n)%nat && (k <? 16)%nat then v i k else 0).
      assert (Hv : forall i k, (k < 16)%nat -> - 128 <= v' i k <= 127).
      { intros i k Hk'. unfold v', v. destruct (Nat.ltb_spec i n), (Nat.ltb_spec k 16); cbn [andb]; try lia.
        destruct (Hsrc (Z.of_nat i) (Z.of_nat k)); unfold n in *; lia. }
      assert (Hlo : forall i, (i < n)%nat -> lo (Z.of_nat i) = map (v' i) (seq 0 8)).
      { intros i Hi. rewrite Hlo0 by (unfold n in Hi; lia).
        apply map_ext_in. intros k Hk'. apply in_seq in Hk'. unfold v', v.
        replace ((i <? n)%nat && (k <? 16)%nat) with true by (destruct (Nat.ltb_spec i n), (Nat.ltb_spec k 16); cbn; lia || reflexivity).
        reflexivity. }
      assert (Hhi : forall i, (i < n)%nat -> hi (Z.of_nat i) = map (v' i) (seq 8 8)).
      { intros i Hi. rewrite Hhi0 by (unfold n in Hi; lia).
        apply map_ext_in. intros k Hk'. apply in_seq in Hk'. unfold v', v.
        replace ((i <? n)%nat && (k <? 16)%nat) with true by (destruct (Nat.ltb_spec i n), (Nat.ltb_spec k 16); cbn; lia || reflexivity).
        reflexivity. }
      destruct (BS_store f g s sw (pk_sums b) _ 16 (pk_sums b) 0
        (map (fun i => wrapS 32 (old i + hsum v' i)) (seq 0 n)) HS ltac:(lia)) as (sums' & Es' & HS').
      { rewrite map_length, seq_length. unfold n. lia. }
      { intros i Hi. rewrite map_length, seq_length in Hi. rewrite nth_map_seq by exact Hi. unfold old.
        rewrite wrapS_add_l by lia. f_equal. unfold bsum. rewrite (sumZ_empty (bval f g (0 + Z.of_nat i)) 0 0) by lia.
        rewrite Z.add_0_r. f_equal.
        transitivity (hsum v i).
        { unfold hsum, v'. replace (i <? n)%nat with true by (destruct (Nat.ltb_spec i n); lia || reflexivity). reflexivity. }
        change 16 with (0 + 16). rewrite sumZ_16. unfold bval, hsum, v. reflexivity. }
      rewrite map_length, seq_length in HS'. rewrite Z.add_0_r in Es'.
      exists sums'. split.
      - destruct Ecw as [E|E]; rewrite E; subst n; rewrite E in *.
        + change (2 =? 4) with false. cbv iota. change (Z.to_nat 2) with 2%nat in *. rewrite Hload. cbn [bind].
          pose proof (int8_sums2 v' Hv old lo hi Hlo Hhi) as Q. cbv beta zeta in Q. rewrite Q. exact Es'.
        + change (4 =? 4) with true. cbv iota. change (Z.to_nat 4) with 4%nat in *. rewrite Hload. cbn [bind].
          pose proof (int8_sums4 v' Hv old lo hi Hlo Hhi) as Q. cbv beta zeta in Q. rewrite Q. exact Es'.
      - refine (BS_ext f g s sw (pk_sums b) _ _ _ _ HS'). cbv beta. intros w Hw. unfold n.
        replace ((0 <=? w) && (w <? 0 + Z.of_nat (Z.to_nat (sf_cw f)))) with true by lia. reflexivity. }
    destruct Hsum as (sums & Esum & HS2).
    match type of Esum with ?L = _ => match goal with |- exists b', bind ?X _ = _ /\ _ => change X with L end end.
    rewrite Esum. cbn [bind].
    eexists. split; [reflexivity|]. apply block_done; [lia| |exact HS2|].
    + cbn [pk_data seek_forward_n_cells]. refine (BD_ext f 16 g (pk_pos b) (pk_data b) _ _ _ _ HB). cbv beta. intros w d Hw Hd _. lia.
    + cbn [pk_pos seek_forward_n_cells]. unfold sf_cellsize. rewrite Ecd, EW. ring.
Qed.

Lemma neon_PackInt8_correct m f src sw b g s :
  side_fmt_ok f -> sm_order src = SWidthMajor ->
  is_format 2 16 CWidthMajor FInt8 f || is_format 4 16 CWidthMajor FInt8 f = true -> sf_cells f = 1 ->
  pack_correct_at m f 16 (neon_PackInt8 f) src sw b g s.
Proof.
  intros Hf Ho Hk Hc1 _ Hsw Hsd Hsrc Hd0 Hs1 Hm.
  assert (Hfmt : (sf_cw f = 2 \/ sf_cw f = 4) /\ sf_cd f = 16 /\ sf_order f = CWidthMajor /\ sf_kind f = FInt8).
  { apply Bool.orb_true_iff in Hk. destruct Hk as [E|E]; apply is_format_spec in E; tauto. }
  destruct Hfmt as (Ecw & Ecd & Eo & Es).
  assert (EW : sf_width f = sf_cw f) by (unfold sf_width; rewrite Hc1; lia).
  assert (Hz : sf_zp f = 128) by (unfold sf_zp; rewrite Es; reflexivity).
  assert (Hr : forall w d, 0 <= w < sf_width f -> 0 <= d < 16 -> 0 <= g w d <= 255).
  { intros w d Hw Hd. destruct (Hsrc w d Hw Hd) as [_ B]. unfold in_min in B. rewrite Es in B. lia. }
  unfold neon_PackInt8. cbv beta zeta.
  destruct (neon_lines_ok f src g Ho Hsrc (sf_cw f) ltac:(lia)) as (lines & El & Hl). rewrite El. cbn [bind].
  set (xl := fun i => map2 Z.lxor (lines i) (repeat 128 16)).
  assert (Hx : forall i, 0 <= i < sf_cw f -> xl i = map (fun k => (g i (Z.of_nat k) - 128) mod 256) (seq 0 16)).
  { intros i Hi. unfold xl. rewrite Hl by assumption. unfold line.
    change (repeat 128 16) with (map (fun _ : nat => 128) (seq 0 16)). rewrite map2_map.
    apply map_ext_in. intros k Hk'. apply in_seq in Hk'. apply lxor_sign, Hr; lia. }
  apply (int8_core_correct f xl (fun i => as_signed 8 (low 8 (xl i))) (fun i => as_signed 8 (high 8 (xl i))) src sw b g s);
    try assumption.
  - unfold sf_signed. rewrite Es. reflexivity.
  - rewrite Hz. exact Hx.
  - intros i Hi. rewrite Hx by exact Hi. unfold as_signed, low. rewrite firstn_map, map_map.
    change (firstn 8 (seq 0 16)) with (seq 0 8). rewrite Hz.
    apply map_ext_in. intros k Hk'. apply in_seq in Hk'. apply sign_of_byte, Hr; lia.
  - intros i Hi. rewrite Hx by exact Hi. unfold as_signed, high. rewrite skipn_map, map_map.
    change (skipn 8 (seq 0 16)) with (seq 8 8). rewrite Hz.
    apply map_ext_in. intros k Hk'. apply in_seq in Hk'. apply sign_of_byte, Hr; lia.
Qed.

Lemma neon_PackInt8Inputs_correct m f src sw b g s :
  side_fmt_ok f -> sm_order src = SWidthMajor ->
  is_format 2 16 CWidthMajor FInt8Inputs f || is_format 4 16 CWidthMajor FInt8Inputs f = true -> sf_cells f = 1 ->
  pack_correct_at m f 16 (neon_PackInt8Inputs f) src sw b g s.
Proof.
  intros Hf Ho Hk Hc1 _ Hsw Hsd Hsrc Hd0 Hs1 Hm.
  assert (Hfmt : (sf_cw f = 2 \/ sf_cw f = 4) /\ sf_cd f = 16 /\ sf_order f = CWidthMajor /\ sf_kind f = FInt8Inputs).
  { apply Bool.orb_true_iff in Hk. destruct Hk as [E|E]; apply is_format_spec in E; tauto. }
  destruct Hfmt as (Ecw & Ecd & Eo & Es).
  assert (EW : sf_width f = sf_cw f) by (unfold sf_width; rewrite Hc1; lia).
  assert (Hz : sf_zp f = 0) by (unfold sf_zp; rewrite Es; reflexivity).
  unfold neon_PackInt8Inputs. cbv beta zeta.
  destruct (neon_lines_ok f src g Ho Hsrc (sf_cw f) ltac:(lia)) as (lines & El & Hl). rewrite El. cbn [bind].
  apply (int8_core_correct f (fun i => map (wrapU 8) (lines i)) (fun i => low 8 (lines i)) (fun i => high 8 (lines i)) src sw b g s);
    try assumption.
  - unfold sf_signed. rewrite Es. reflexivity.
  - intros i Hi. rewrite Hl by exact Hi. unfold line. rewrite map_map. rewrite Hz.
    apply map_ext. intros k. rewrite Z.sub_0_r. reflexivity.
  - intros i Hi. rewrite Hl by exact Hi. unfold line, low. rewrite firstn_map, Hz.
    change (firstn 8 (seq 0 16)) with (seq 0 8). apply map_ext. intros k. lia.
  - intros i Hi. rewrite Hl by exact Hi. unfold line, high. rewrite skipn_map, Hz.
    change (skipn 8 (seq 0 16)) with (seq 8 8). apply map_ext. intros k. lia.
Qed.

Lemma neon_packer_correct m f : side_fmt_ok f -> (sf_cd f | 16) -> pack_correct m f 16 (neon_packer m f 16).
Proof.
  intros Hf Hcd src sw b g s.
  pose proof (Pack_correct m f 16 Hf ltac:(lia) Hcd src sw b g s) as HP.
  destruct (sm_order src) eqn:Ho.
  2: { destruct (sf_kind f) eqn:Ek;
       [| |intros A0; discriminate (eq_trans (eq_sym Ho) (A0 Ek))];
       (refine (pack_at_ext m f 16 (Pack m f 16) _ src sw b g s _ HP); unfold neon_packer; rewrite Ho, Ek; reflexivity). }
  destruct (is_format 4 2 CDepthMajor FUint8 f) eqn:E1.
  { refine (pack_at_ext m f 16 (neon_Pack4x2 1 depth_major_sum f 16) _ src sw b g s _ _);
    [unfold neon_packer; rewrite Ho, E1; reflexivity|apply neon_Pack4x2_correct; auto]. }
  destruct (is_format 4 2 CWidthMajor FUint8 f) eqn:E2.
  { refine (pack_at_ext m f 16 (neon_Pack4x2 2 width_major_sum f 16) _ src sw b g s _ _);
    [unfold neon_packer; rewrite Ho, E1, E2; reflexivity|apply neon_Pack4x2_correct; auto]. }
  destruct ((is_format 2 16 CWidthMajor FInt8 f || is_format 4 16 CWidthMajor FInt8 f) && (sf_cells f =? 1)) eqn:E3.
  { refine (pack_at_ext m f 16 (neon_PackInt8 f) _ src sw b g s _ _);
    [unfold neon_packer; rewrite Ho, E1, E2, E3; reflexivity|].
    apply Bool.andb_true_iff in E3. destruct E3 as [E3 E4]. apply neon_PackInt8_correct; try assumption. lia. }
  destruct ((is_format 2 16 CWidthMajor FInt8Inputs f || is_format 4 16 CWidthMajor FInt8Inputs f) && (sf_cells f =? 1)) eqn:E5.
  { refine (pack_at_ext m f 16 (neon_PackInt8Inputs f) _ src sw b g s _ _);
    [unfold neon_packer; rewrite Ho, E1, E2, E3, E5; reflexivity|].
    apply Bool.andb_true_iff in E5. destruct E5 as [E5 E6]. apply neon_PackInt8Inputs_correct; try assumption. lia. }
  refine (pack_at_ext m f 16 (Pack m f 16) _ src sw b g s _ HP). unfold neon_packer. rewrite Ho, E1, E2, E3, E5. reflexivity.
Qed.
