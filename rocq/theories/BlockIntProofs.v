(* BlockIntProofs.v: the block parameters computed in int are those of CommonModel.v *)
From Verif Require Import Base BaseLemmas CommonModel CommonProofs BlockIntModel.

Lemma int_ok m z : - 2147483648 <= z <= 2147483647 -> norm m 32 z = Some z.
Proof. intros H. apply norm_fits; [lia|]. change (int_min 32) with (- 2147483648). change (int_max 32) with 2147483647. exact H. Qed.
Lemma ceil_ok m a b : 0 < a -> 0 < b -> a + b <= 2147483647 -> CeilQuotient_int m a b = Some (CeilQuotient a b).
Proof.
  intros Ha Hb H. unfold CeilQuotient_int. rewrite (int_ok m (a + b)) by lia. cbn [bind].
  rewrite (int_ok m (a + b - 1)) by lia. cbn [bind]. unfold cdiv. replace (b =? 0) with false by lia. reflexivity.
Qed.
Lemma round_ok k i : 0 < k <= 64 -> 0 < i <= 2147483583 -> RoundUp32 k i = RoundUp k i.
Proof. intros Hk Hi. apply RoundUp32_eq; change (2 ^ 31) with 2147483648; lia. Qed.
(* as many blocks as are needed for blocks of at most n *)
Lemma even_blocks a n : 0 < a -> 0 < n -> CeilQuotient a (Z.max 1 (CeilQuotient a n)) <= n.
Proof.
  intros Ha Hn. pose proof (CeilQuotient_spec a n ltac:(lia) Hn) as H1. pose proof (CeilQuotient_pos a n Ha Hn) as H2.
  set (b := Z.max 1 (CeilQuotient a n)). assert (Eb : b = CeilQuotient a n) by (subst b; lia).
  pose proof (CeilQuotient_spec a b ltac:(lia) ltac:(lia)) as H3. rewrite <- Eb in *. clearbody b. nia.
Qed.
Lemma quot_le a b : 0 <= a -> 0 < b -> 0 <= Z.quot a b <= a.
Proof. intros Ha Hb. rewrite Z.quot_div_nonneg by lia. split; [apply Z.div_pos; lia|apply Z.div_le_upper_bound; nia]. Qed.
Lemma max_quot_le a b c : 0 < b -> a <= c -> 1 <= c -> 1 <= Z.max 1 (Z.quot a b) <= c.
Proof.
  intros Hb Ha Hc. destruct (Z.le_gt_cases 0 a) as [H|H].
  - pose proof (quot_le a b H Hb). lia.
  - pose proof (Z.quot_opp_l (- a) b ltac:(lia)) as E. rewrite Z.opp_involutive in E.
    pose proof (quot_le (- a) b ltac:(lia) Hb). lia.
Qed.

Lemma times_max d x q b : 0 < d -> x <= q -> d * q <= b -> 0 <= b -> d * Z.max 1 x <= b + d.
Proof.
  intros Hd Hx Hq Hb. assert (d * x <= d * q) by (apply Z.mul_le_mono_nonneg_l; lia).
  destruct (Z.max_spec 1 x) as [[_ ->]|[_ ->]]; lia.
Qed.
Lemma times_cols d c n kc dp b : 0 < d <= dp -> 0 < c <= n + kc - 1 -> 1 <= kc -> d * n <= b + d -> kc * dp + b < 2147483648 ->
  0 <= d * c <= 2147483647.
Proof.
  intros Hd Hc Hk Hn H. assert (0 <= d * c) by (apply Z.mul_nonneg_nonneg; lia).
  assert (d * c <= d * (n + kc - 1)) by (apply Z.mul_le_mono_nonneg_l; lia).
  assert (d * kc <= dp * kc) by (apply Z.mul_le_mono_nonneg_r; lia). lia.
Qed.
Lemma times_threads nt s n : 0 < nt -> 0 < s <= n -> nt * n < 2147483648 -> 0 < nt * s <= 2147483647 /\ s <= 2147483647.
Proof.
  intros Hn Hs H. assert (nt * s <= nt * n) by (apply Z.mul_le_mono_nonneg_l; lia).
  assert (1 * s <= nt * s) by (apply Z.mul_le_mono_nonneg_r; lia). lia.
Qed.
Lemma four_ab a b : 0 < a <= 64 -> 0 < b <= 64 -> 0 < 4 * a * b <= 16384.
Proof. intros Ha Hb. nia. Qed.

Lemma block_params_int m k rows cols depth nt t x :
  kernel_fmt_ok k -> kRows k <= 64 -> kCols k <= 64 -> kf_reg k <= 64 ->
  0 < rows <= 2 ^ 29 -> 0 < cols <= 2 ^ 28 -> 0 < depth <= 2 ^ 29 -> 0 < nt ->
  0 <= t_l1_bytes t <= 2 ^ 29 -> 0 <= t_l2_bytes t <= 2 ^ 29 ->
  kCols k * (depth + kf_reg k) + t_l2_bytes t < 2 ^ 31 ->
  nt * (depth + kf_reg k + 4 * (cols + kCols k)) < 2 ^ 31 ->
  rf_mul (t_factor t) (Z.quot (t_l2_bytes t) (RoundUp (kf_reg k) depth)) = Some x ->
  x <= Z.quot (t_l2_bytes t) (RoundUp (kf_reg k) depth) ->
  exists bp, BlockParams_Init_int m k rows cols depth nt t = Some bp /\ BlockParams_Init k rows cols depth nt t = Some bp.
Proof.
  intros Hk HR HC HG Hr Hc Hd Hnt HB1 HB2 Hrhs Hrow Hx Hxle.
  destruct (BlockParams_Init_ok k rows cols depth nt t x Hk ltac:(lia) ltac:(lia) ltac:(lia) Hnt Hx) as (bp & E & _).
  exists bp. split; [|exact E]. rewrite <- E. clear E bp.
  pose proof (kRows_pos k Hk) as HkR. pose proof (kCols_pos k Hk) as HkC.
  assert (Hreg : 0 < kf_reg k) by (destruct Hk as (_ & _ & _ & ? & _); assumption).
  change (2 ^ 31) with 2147483648 in *. change (2 ^ 29) with 536870912 in *. change (2 ^ 28) with 268435456 in *.
  unfold BlockParams_Init_int, BlockParams_Init.
  pose proof (RoundUp_ge (kf_reg k) depth Hreg) as HD.
  assert (E2 : exists l2r, 0 < l2r <= 536870912 + 128 /\
    FindL2BlockSizes_int m k rows cols depth nt (t_l2_bytes t) (t_factor t) =
    Some (l2r, RoundUp (kCols k) (CeilQuotient cols (Z.max 1 (CeilQuotient cols (Z.max 1 x)))), RoundUp (kf_reg k) depth) /\
    FindL2BlockSizes k rows cols depth nt (t_l2_bytes t) (t_factor t) =
    Some (l2r, RoundUp (kCols k) (CeilQuotient cols (Z.max 1 (CeilQuotient cols (Z.max 1 x)))), RoundUp (kf_reg k) depth)).
  { unfold FindL2BlockSizes_int, FindL2BlockSizes.
    rewrite (round_ok (kRows k) rows) by lia. rewrite (round_ok (kf_reg k) depth) by lia.
    set (l2d := RoundUp (kf_reg k) depth) in *.
    unfold cdiv at 1 4. replace (nt =? 0) with false by lia. cbn [bind].
    pose proof (RoundUp_ge (kRows k) rows HkR) as Hrr.
    set (ptr := Z.max 1 (Z.quot (RoundUp (kRows k) rows) nt)).
    assert (Hptr : 1 <= ptr <= 536870912 + 64) by (apply max_quot_le; lia).
    unfold cdiv at 1 3. replace (l2d =? 0) with false by lia. cbn [bind]. rewrite Hx. cbn [bind].
    pose proof (quot_le (t_l2_bytes t) l2d ltac:(lia) ltac:(lia)) as Hq.
    assert (Hq' : l2d * Z.quot (t_l2_bytes t) l2d <= t_l2_bytes t) by (apply Z.mul_quot_le; lia).
    set (mc := Z.max 1 x). pose proof (CeilQuotient_pos cols mc ltac:(lia) ltac:(lia)) as Hb.
    rewrite (ceil_ok m cols mc) by lia. cbn [bind].
    set (nb := Z.max 1 (CeilQuotient cols mc)).
    pose proof (CeilQuotient_pos cols nb ltac:(lia) ltac:(lia)) as Hcc.
    assert (Hcm : CeilQuotient cols nb <= mc) by (apply even_blocks; lia).
    rewrite (ceil_ok m cols nb) by lia. cbn [bind].
    rewrite (round_ok (kCols k) (CeilQuotient cols nb)) by lia.
    pose proof (RoundUp_ge (kCols k) (CeilQuotient cols nb) HkC) as Hl2c.
    set (l2c := RoundUp (kCols k) (CeilQuotient cols nb)) in *.
    destruct (rf_is_one (t_factor t)).
    - rewrite (round_ok (kRows k) ptr) by lia. pose proof (RoundUp_ge (kRows k) ptr HkR).
      eexists. split; [|split; reflexivity]. lia.
    - assert (Hprod : 0 <= l2d * l2c <= 2147483647).
      { apply (times_cols l2d l2c mc (kCols k) (depth + kf_reg k) (t_l2_bytes t)); [lia|lia|lia| |lia].
        apply (times_max l2d x (Z.quot (t_l2_bytes t) l2d)); [lia|exact Hxle|exact Hq'|lia]. }
      destruct (times_threads nt (l2d + 4 * l2c) (depth + kf_reg k + 4 * (cols + kCols k)) Hnt ltac:(lia) Hrow) as [Hrowp Hsum].
      rewrite (int_ok m (l2d * l2c)) by lia. cbn [bind]. rewrite (int_ok m (t_l2_bytes t - l2d * l2c)) by lia. cbn [bind].
      rewrite (int_ok m (4 * l2c)) by lia. cbn [bind]. rewrite (int_ok m (l2d + 4 * l2c)) by lia. cbn [bind].
      rewrite (int_ok m (nt * (l2d + 4 * l2c))) by lia. cbn [bind].
      unfold cdiv. replace (nt * (l2d + 4 * l2c) =? 0) with false by lia. cbn [bind].
      set (q2 := Z.max 1 (Z.quot (t_l2_bytes t - l2d * l2c) (nt * (l2d + 4 * l2c)))).
      assert (Hq2 : 1 <= q2 <= 536870912) by (apply max_quot_le; lia).
      pose proof (CeilQuotient_pos ptr q2 ltac:(lia) ltac:(lia)) as Hb2.
      rewrite (ceil_ok m ptr q2) by lia. cbn [bind].
      set (nb2 := Z.max 1 (CeilQuotient ptr q2)).
      pose proof (CeilQuotient_pos ptr nb2 ltac:(lia) ltac:(lia)) as Hcr.
      rewrite (ceil_ok m ptr nb2) by lia. cbn [bind].
      rewrite (round_ok (kRows k) (CeilQuotient ptr nb2)) by lia.
      pose proof (RoundUp_ge (kRows k) (CeilQuotient ptr nb2) HkR).
      eexists. split; [|split; reflexivity]. lia. }
  destruct E2 as (l2r & Hl2r & -> & ->). cbn [bind].
  set (mc := Z.max 1 x). set (nb := Z.max 1 (CeilQuotient cols mc)).
  pose proof (CeilQuotient_pos cols mc ltac:(lia) ltac:(lia)) as Hb.
  pose proof (CeilQuotient_pos cols nb ltac:(lia) ltac:(lia)) as Hcc.
  pose proof (RoundUp_ge (kCols k) (CeilQuotient cols nb) HkC) as Hl2c.
  set (l2c := RoundUp (kCols k) (CeilQuotient cols nb)) in *. clearbody l2c.
  set (l2d := RoundUp (kf_reg k) depth) in *. clearbody l2d.
  apply (f_equal (fun o : option (Z * Z * Z) => let* (l1_rows, l1_cols, l1_depth) := o in
    Some {| bp_l1_rows := l1_rows; bp_l1_cols := l1_cols; bp_l1_depth := l1_depth;
            bp_l2_rows := l2r; bp_l2_cols := l2c; bp_l2_depth := l2d |})).
  unfold FindL1BlockSizes_int, FindL1BlockSizes.
  destruct (l2r mod kRows k =? 0); [|reflexivity]. destruct (l2c mod kCols k =? 0); [|reflexivity].
  destruct (l2d mod kDepth k =? 0); [|reflexivity]. cbn [guard bind].
  pose proof (four_ab (kRows k) (kCols k) ltac:(lia) ltac:(lia)) as HRC.
  destruct (times_threads nt (l2d + 4 * l2c) (depth + kf_reg k + 4 * (cols + kCols k)) Hnt ltac:(lia) Hrow) as [_ Hsum].
  rewrite (int_ok m (4 * kRows k)) by lia. cbn [bind]. rewrite (int_ok m (4 * kRows k * kCols k)) by lia. cbn [bind].
  rewrite (int_ok m (t_l1_bytes t - 4 * kRows k * kCols k)) by lia. cbn [bind].
  rewrite (int_ok m (kRows k + kCols k)) by lia. cbn [bind].
  unfold cdiv. replace (kRows k + kCols k =? 0) with false by lia. cbn [bind].
  set (q := Z.max 1 (Z.quot (t_l1_bytes t - 4 * kRows k * kCols k) (kRows k + kCols k))).
  assert (Hq : 1 <= q <= 536870912) by (apply max_quot_le; lia).
  pose proof (CeilQuotient_pos l2d q ltac:(lia) ltac:(lia)) as Hd1.
  rewrite (ceil_ok m l2d q) by lia. cbn [bind]. set (nb1 := Z.max 1 (CeilQuotient l2d q)).
  pose proof (CeilQuotient_pos l2d nb1 ltac:(lia) ltac:(lia)) as Hd2.
  rewrite (ceil_ok m l2d nb1) by lia. cbn [bind].
  rewrite (round_ok (kf_reg k) (CeilQuotient l2d nb1)) by lia.
  pose proof (RoundUp_ge (kf_reg k) (CeilQuotient l2d nb1) Hreg) as Hd3.
  set (l1d := RoundUp (kf_reg k) (CeilQuotient l2d nb1)) in *.
  rewrite (int_ok m (4 * l2c)) by lia. cbn [bind]. rewrite (int_ok m (l1d + 4 * l2c)) by lia. cbn [bind].
  replace (l1d + 4 * l2c =? 0) with false by lia. cbn [bind].
  set (q2 := Z.max 1 (Z.quot (t_l1_bytes t) (l1d + 4 * l2c))).
  assert (Hq2 : 1 <= q2 <= 536870912) by (apply max_quot_le; lia).
  pose proof (CeilQuotient_pos l2r q2 ltac:(lia) ltac:(lia)) as Hr1.
  rewrite (ceil_ok m l2r q2) by lia. cbn [bind]. set (nb2 := Z.max 1 (CeilQuotient l2r q2)).
  pose proof (CeilQuotient_pos l2r nb2 ltac:(lia) ltac:(lia)) as Hr2.
  rewrite (ceil_ok m l2r nb2) by lia. cbn [bind].
  rewrite (round_ok (kRows k) (CeilQuotient l2r nb2)) by lia. reflexivity.
Qed.
