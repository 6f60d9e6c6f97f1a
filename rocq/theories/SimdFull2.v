(* SimdFull2.v: the statements used by Props_Simd2.v *)
From Verif Require Import Base BaseLemmas FixedPointModel FixedPointSpec FixedPointProofs FixedPointProofs2 FixedPointProofs3 FixedPointProofs5
  SimdModel SimdSpec SimdProofs SimdProofs2 SimdProofs3 SimdProofs4 SimdFull SimdModel2 SimdSpec2 SimdProofs5 SimdProofs6.

Lemma has_lane_ok t w i : has_lane t w i -> w1632 w /\ 1 <= w /\ 0 <= i /\ ops_ok (simd t w) w i.
Proof.
  intros (W & Hi & B). assert (L : w * lanes w = 128) by (destruct W; subst w; reflexivity).
  split; [exact W|]. split; [destruct W; lia|]. split; [exact Hi|]. destruct t; cbn [register_bits] in B.
  - apply avx_ok; [exact W|nia].
  - apply wasm_ok; [exact W|nia].
  - apply msa_ok; [exact W|nia].
Qed.
Ltac sp2 H W H1 Hi K := destruct (has_lane_ok _ _ _ H) as (W & H1 & Hi & K).

Lemma f2_bits t w i a b : has_lane t w i ->
  lane w i (s_and (simd t w) a b) = BitAnd (lane w i a) (lane w i b) /\ lane w i (s_or (simd t w) a b) = BitOr (lane w i a) (lane w i b) /\
  lane w i (s_xor (simd t w) a b) = BitXor (lane w i a) (lane w i b) /\ lane w i (s_not (simd t w) a) = BitNot (lane w i a).
Proof.
  intros H. sp2 H W H1 Hi K. lanes2get. split; [apply (o_and _ _ _ K)|]. split; [apply (o_or _ _ _ K)|]. split; [apply (o_xor _ _ _ K)|apply (o_not _ _ _ K)].
Qed.
Lemma f2_dup t w i x : has_lane t w i -> - 2 ^ (w - 1) <= x < 2 ^ (w - 1) -> lane w i (s_dup (simd t w) x) = x.
Proof. intros H Hx. sp2 H W H1 Hi K. lanes2get. rewrite (o_dup _ _ _ K). apply wrapS_small; [lia|]. unfold int_min, int_max. lia. Qed.
Lemma f2_arith t w i a b : has_lane t w i ->
  Add Wrap w (lane w i a) (lane w i b) = Some (lane w i (s_add (simd t w) a b)) /\
  Sub Wrap w (lane w i a) (lane w i b) = Some (lane w i (s_sub (simd t w) a b)) /\
  Neg Wrap w (lane w i a) = Some (lane w i (s_neg (simd t w) a)).
Proof.
  intros H. sp2 H W H1 Hi K. lanes2get. unfold Add, Sub, Neg, norm.
  split; [f_equal; symmetry; apply (o_add _ _ _ K)|]. split; [f_equal; symmetry; apply (o_sub _ _ _ K)|f_equal; symmetry; apply (o_neg _ _ _ K)].
Qed.
Lemma f2_mul w a b :
  (forall i, has_lane Avx w i -> Mul Wrap w (lane w i a) (lane w i b) = Some (lane w i (avx_Mul w a b))) /\
  (forall i, has_lane Wasm w i -> Mul Wrap w (lane w i a) (lane w i b) = Some (lane w i (wasm_Mul w a b))).
Proof.
  split; intros i H; pose proof H as (W0 & _ & B); cbn [register_bits] in B; sp2 H W H1 Hi K; lanes2get; unfold Mul, norm; f_equal; symmetry;
    assert (L : w * lanes w = 128) by (destruct W; subst w; reflexivity).
  - destruct (lane_split w i W ltac:(nia)) as (k & j & Hk & Hj & ->). apply a_mul; auto using wdiv.
  - apply (g_mul w i W). nia.
Qed.
Lemma f2_shr t w i a n : has_lane t w i -> 0 <= n <= w - 1 -> ShiftRight (lane w i a) n = Some (lane w i (s_shr (simd t w) a n)).
Proof.
  intros H Hn. sp2 H W H1 Hi K. lanes2get. unfold ShiftRight. replace ((0 <=? n) && (n <? 32)) with true by (destruct W; lia).
  f_equal. symmetry. now apply (o_shr _ _ _ K).
Qed.
Lemma f2_shr_avx w i a n : has_lane Avx w i -> 0 <= n <= 31 -> ShiftRight (lane w i a) n = Some (lane w i (s_shr (simd Avx w) a n)).
Proof.
  intros H Hn. pose proof H as (_ & _ & B). cbn [register_bits] in B. sp2 H W H1 Hi K. lanes2get. unfold ShiftRight.
  replace ((0 <=? n) && (n <? 32)) with true by lia.
  f_equal. symmetry. assert (L : w * lanes w = 128) by (destruct W; subst w; reflexivity).
  destruct (lane_split w i W ltac:(nia)) as (k & j & Hk & Hj & ->). cbn [simd s_shr]. apply a_shr; auto using wdiv. lia.
Qed.
Lemma f2_shr_refuted : exists a, is_register Wasm a /\ is_register Msa a /\ forall i, 0 <= i < 8 -> lane 16 i a = -5 /\
  ShiftRight (-5) 16 = Some (-1) /\ lane 16 i (s_shr (simd Wasm 16) a 16) = -5 /\ lane 16 i (s_shr (simd Msa 16) a 16) = -5.
Proof.
  exists (mm_set1 16 (-5)). split; [apply pack_range; auto|]. split; [apply pack_range; auto|]. intros i Hi.
  assert (Hl : 0 <= i < lanes 16) by exact Hi. rewrite !lane_get by lia.
  assert (E : get 16 i (mm_set1 16 (-5)) = -5) by (rewrite (g_dup 16 i (or_introl eq_refl) Hi); reflexivity).
  split; [exact E|]. split; [reflexivity|]. cbn [simd s_shr]. unfold wasm_ShiftRight, wasm_shr, msa_ShiftRight, msa_sra, msa_fill.
  rewrite get_map1, get_map2, get_pack, E by lia. split; reflexivity.
Qed.
Lemma f2_shl t w i a n : has_lane t w i -> 0 <= n <= 30 -> n <= w - 1 ->
  - 2 ^ (w - 1) <= lane w i a * 2 ^ n <= 2 ^ (w - 1) - 1 ->
  ShiftLeft Trap w (lane w i a) n = Some (lane w i (s_shl (simd t w) a n)).
Proof.
  intros H Hn Hw R. sp2 H W H1 Hi K. rewrite !lane_get in * by lia. rewrite shl_eq by lia.
  rewrite (o_shl _ _ _ K) by lia. rewrite wrapS_small by (unfold int_min, int_max; lia).
  unfold clampZ, int_min, int_max. replace (get w i a * 2 ^ n <? - 2 ^ (w - 1)) with false by lia.
  replace (2 ^ (w - 1) - 1 <? get w i a * 2 ^ n) with false by lia. reflexivity.
Qed.
Lemma f2_shl_refuted : exists a, a_register a /\ (forall i, 0 <= i < 4 -> lane 32 i a = 1073741824) /\
  ShiftLeft Trap 32 1073741824 1 = Some 2147483647 /\ forall t i, 0 <= i < 4 -> lane 32 i (s_shl (simd t 32) a 1) = -2147483648.
Proof.
  exists (mm_set1 32 1073741824). split; [apply pack_range; auto|].
  assert (L : forall i, 0 <= i < 4 -> get 32 i (mm_set1 32 1073741824) = 1073741824).
  { intros i Hi. rewrite (g_dup 32 i (or_intror eq_refl) Hi). reflexivity. }
  split; [intros i Hi; rewrite lane_get by lia; auto|]. split; [reflexivity|].
  intros t i Hi. assert (H : has_lane t 32 i) by (split; [now right|]; destruct t; cbn; lia). sp2 H W H1 Hi' K. lanes2get.
  rewrite (o_shl _ _ _ K), L by lia. reflexivity.
Qed.
Lemma f2_masks t w i a b : has_lane t w i -> let x := lane w i a in let y := lane w i b in
  lane w i (s_eq (simd t w) a b) = MaskIfEqual x y /\ lane w i (s_ne (simd t w) a b) = MaskIfNotEqual x y /\
  lane w i (s_gt (simd t w) a b) = MaskIfGreaterThan x y /\ lane w i (s_ge (simd t w) a b) = MaskIfGreaterThanOrEqual x y /\
  lane w i (s_lt (simd t w) a b) = MaskIfLessThan x y /\ lane w i (s_le (simd t w) a b) = MaskIfLessThanOrEqual x y /\
  lane w i (s_zero (simd t w) a) = MaskIfZero x /\ lane w i (s_nonzero (simd t w) a) = MaskIfNonZero x.
Proof.
  intros H. sp2 H W H1 Hi K. cbv zeta. lanes2get.
  split; [apply (o_eq _ _ _ K)|]. split; [apply (o_ne _ _ _ K)|]. split; [apply (o_gt _ _ _ K)|]. split; [apply (o_ge _ _ _ K)|].
  split; [apply (o_lt _ _ _ K)|]. split; [apply (o_le _ _ _ K)|]. split; [apply (o_z _ _ _ K)|apply (o_nz _ _ _ K)].
Qed.
Lemma f2_select t w i m a b : has_lane t w i -> lane w i m = 0 \/ lane w i m = -1 ->
  lane w i (s_select (simd t w) m a b) = (if lane w i m =? 0 then lane w i b else lane w i a).
Proof.
  intros H M. sp2 H W H1 Hi K. rewrite !lane_get in * by lia. rewrite (o_sel _ _ _ K) by exact M.
  destruct M as [-> | ->]; [now rewrite sel_false|now rewrite sel_true].
Qed.
Lemma f2_select_any t w i m a b : has_lane t w i -> t = Wasm \/ t = Msa \/ w = 16 ->
  lane w i (s_select (simd t w) m a b) = SelectUsingMask (lane w i m) (lane w i a) (lane w i b).
Proof.
  intros H T. sp2 H W H1 Hi K. rewrite !lane_get in * by lia. destruct t; cbn [simd s_select].
  - assert (w = 16) as -> by (destruct T as [T | [T | T]]; congruence). exact (g_sse_sel 16 i W m a b).
  - now apply g_wsel.
  - now apply g_msel.
Qed.
Lemma f2_select_refuted : exists m a b, is_register Avx m /\ is_register Avx a /\ is_register Avx b /\
  SelectUsingMask (lane 32 0 m) (lane 32 0 a) (lane 32 0 b) = 5 /\ lane 32 0 (s_select (simd Avx 32) m a b) = 4.
Proof.
  exists 1, 5, 4. unfold is_register. cbn [register_bits]. repeat apply conj; try lia; vm_compute; reflexivity.
Qed.
Lemma wl t w i : w1632 w -> t <> Avx -> (has_lane t w i <-> 0 <= i < lanes w).
Proof.
  intros W N. assert (L : w * lanes w = 128) by (destruct W; subst w; reflexivity). assert (1 <= w) by (destruct W; lia).
  unfold has_lane. destruct t; [congruence| |]; cbn [register_bits]; (split; [intros (_ & A & B); nia|intros A; split; [exact W|]; nia]).
Qed.
Lemma f2_any t w a : w = 16 \/ w = 32 -> t <> Avx -> is_register t a ->
  (s_any (simd t w) a = true <-> exists i, has_lane t w i /\ lane w i a <> 0).
Proof.
  intros W N Ha. assert (H1 : 1 <= w) by (destruct W; lia).
  assert (E : (exists i, has_lane t w i /\ lane w i a <> 0) <-> exists i, 0 <= i < lanes w /\ get w i a <> 0).
  { split; intros (i & Hi & P); exists i.
    - apply (wl t w i W N) in Hi. rewrite lane_get in P by lia. auto.
    - rewrite lane_get by lia. split; [now apply wl|exact P]. }
  rewrite E. destruct t; [congruence| |]; cbn [simd s_any]; [now apply wasm_any|now apply msa_any].
Qed.
Lemma f2_all t w a : w = 16 \/ w = 32 -> t <> Avx -> is_mask t w a ->
  (s_all (simd t w) a = true <-> forall i, has_lane t w i -> lane w i a = -1).
Proof.
  intros W N M. assert (H1 : 1 <= w) by (destruct W; lia).
  assert (E : (forall i, has_lane t w i -> lane w i a = -1) <-> forall i, 0 <= i < lanes w -> get w i a = -1).
  { split; intros A i Hi.
    - rewrite <- lane_get by lia. apply A. now apply wl.
    - apply (wl t w i W N) in Hi. rewrite lane_get by lia. auto. }
  rewrite E. destruct t; [congruence| |]; cbn [simd s_all]; [|now apply msa_all].
  rewrite (wasm_all w a W). split; intros A i Hi; specialize (A i Hi); [|lia].
  assert (L : has_lane Wasm w i) by now apply wl. destruct (M i L) as [Q | Q]; rewrite lane_get in Q by lia; [contradiction|exact Q].
Qed.
Lemma avx_any_true a : avx_Any a = true.
Proof. unfold avx_Any, mm256_testz. rewrite Z.land_diag. destruct (a =? 0); reflexivity. Qed.
Lemma avx_all_true a : avx_All a = true.
Proof. unfold avx_All, mm256_testc. rewrite Z.ldiff_diag. reflexivity. Qed.
Lemma f2_avx_tests_refuted : forall w, w = 16 \/ w = 32 ->
  exists a, is_register Avx a /\ is_mask Avx w a /\ (forall i, has_lane Avx w i -> lane w i a = 0) /\
  s_any (simd Avx w) a = true /\ s_all (simd Avx w) a = true.
Proof.
  intros w W. assert (Z0 : forall i, has_lane Avx w i -> lane w i 0 = 0).
  { intros i H. sp2 H W' H1 Hi K. rewrite lane_get by lia. unfold get. rewrite Z.shiftr_0_l. now apply wrapS_0. }
  exists 0. split; [unfold is_register; cbn; lia|]. split; [intros i Hi; left; auto|]. split; [exact Z0|].
  split; [apply avx_any_true|apply avx_all_true].
Qed.
Lemma f2_half t w i a b : has_lane t w i ->
  lane w i (s_halfsum (simd t w) a b) = (lane w i a + lane w i b + 1) / 2 /\
  nearest_up ((lane w i a + lane w i b + 1) / 2) (lane w i a + lane w i b) 2.
Proof.
  intros H. sp2 H W H1 Hi K. lanes2get. split; [apply (o_half _ _ _ K)|].
  replace ((get w i a + get w i b + 1) / 2) with (rnd_up (get w i a + get w i b) 2) by (unfold rnd_up; lia). apply rnd_up_nearest. lia.
Qed.
Lemma f2_satadd t i a b : has_lane t 16 i -> lane 16 i (s_addsat16 (simd t 16) a b) = SaturatingAdd 16 (lane 16 i a) (lane 16 i b).
Proof.
  intros H. sp2 H W H1 Hi K. lanes2get. rewrite (o_sat _ _ _ K) by reflexivity. symmetry. apply sat_add_eq; lia.
Qed.
Lemma f2_hmul t w i a b : has_lane t w i -> ~ (t = Avx /\ w = 32 /\ lane w i a = - 2 ^ 31 /\ lane w i b = - 2 ^ 31) ->
  lane w i (s_mul (simd t w) a b) = SaturatingRoundingDoublingHighMul w (lane w i a) (lane w i b).
Proof.
  intros H N. pose proof H as (_ & _ & B). sp2 H W H1 Hi K. rewrite !lane_get in * by lia.
  assert (L : w * lanes w = 128) by (destruct W; subst w; reflexivity). destruct t; cbn [register_bits] in B; cbn [simd s_mul].
  - destruct (lane_split w i W ltac:(nia)) as (k & j & Hk & Hj & ->). apply a_hmul; auto using wdiv.
    intros (E & X & Y). apply N. rewrite E in X, Y. change (int_min 32) with (- 2 ^ 31) in *. rewrite E. tauto.
  - assert (Hl : 0 <= i < lanes w) by nia. destruct W as [-> | ->]; [exact (w_mul16 i a b Hl)|exact (w_mul32 i a b Hl)].
  - apply (g_mmul w i W). nia.
Qed.
Lemma f2_hmul_refuted : exists a, is_register Avx a /\ forall i, 0 <= i < 8 -> lane 32 i a = - 2 ^ 31 /\
  SaturatingRoundingDoublingHighMul 32 (- 2 ^ 31) (- 2 ^ 31) = 2 ^ 31 - 1 /\ lane 32 i (s_mul (simd Avx 32) a a) = - 2 ^ 31.
Proof.
  exists (mm256_set1 32 (- 2 ^ 31)). split; [vm_compute; split; [discriminate|reflexivity]|]. intros i Hi.
  assert (W : w1632 32) by now right.
  assert (H : has_lane Avx 32 i) by (split; [now right|]; cbn; lia). sp2 H W' H1 Hi' K. rewrite !lane_get by lia.
  pose proof (o_dup _ _ _ K (- 2 ^ 31)) as E. cbn [simd s_dup] in E. unfold avx_Dup in E. change (wrapS 32 (- 2 ^ 31)) with (- 2 ^ 31) in E.
  split; [exact E|]. split; [reflexivity|]. cbn [simd s_mul]. change (32 =? 16) with false. cbn iota.
  destruct (lane_split 32 i W ltac:(exact Hi)) as (k & j & Hk & Hj & ->).
  assert (Hk0 : 0 <= k) by (destruct Hk; lia). rewrite (get_half 32 k j) in * by (exact d32 || assumption).
  rewrite mul32_raw_h by (exact Hk || exact Hj). exact (proj1 (sse_mul32_min j _ _ Hj E E)).
Qed.
Lemma f2_divide t w i x e : has_lane t w i -> 0 <= e <= w - 1 ->
  (exists r, s_divide (simd t w) x e = Some r /\ lane w i r = rnd_away (lane w i x) (2 ^ e) /\
     RoundingDivideByPOT Trap w (lane w i x) e = Some (lane w i r)) /\
  nearest_away (rnd_away (lane w i x) (2 ^ e)) (lane w i x) (2 ^ e).
Proof.
  intros H He. sp2 H W H1 Hi K. lanes2get. split.
  - destruct (o_div _ _ _ K x e He) as (r & E & G). exists r. rewrite lane_get by lia. split; [exact E|]. split; [exact G|].
    rewrite G. apply rdpot_eq; [exact W|apply get_fits; lia|exact He].
  - apply rnd_away_nearest. apply Z.pow_pos_nonneg; lia.
Qed.
Lemma f2_divide_refuted : exists x, is_register Wasm x /\ is_register Msa x /\ forall i, 0 <= i < 8 -> lane 16 i x = 1 /\
  option_map (lane 16 i) (s_divide (simd Wasm 16) x 16) = Some 2 /\ option_map (lane 16 i) (s_divide (simd Msa 16) x 16) = Some 1 /\ rnd_away 1 (2 ^ 16) = 0.
Proof.
  exists (mm_set1 16 1). split; [apply pack_range; auto|]. split; [apply pack_range; auto|]. intros i Hi.
  assert (C : i = 0 \/ i = 1 \/ i = 2 \/ i = 3 \/ i = 4 \/ i = 5 \/ i = 6 \/ i = 7) by lia.
  repeat destruct C as [-> | C]; try subst i; repeat apply conj; vm_compute; reflexivity.
Qed.
Lemma f2_pot t w i e x : has_lane t w i -> - (w - 1) <= e <= w - 1 -> e <= 30 ->
  exists r, s_pot (simd t w) e x = Some r /\ SaturatingRoundingMultiplyByPOT Trap w e (lane w i x) = Some (lane w i r).
Proof.
  intros H He H30. sp2 H W H1 Hi K. destruct (o_pot _ _ _ K e x He H30) as (r & E & G). exists r. lanes2get. auto.
Qed.

(* the functions *)
Definition on_lanes2 (f : vops -> reg -> option reg) (w : Z) (s : Z -> option Z) (dom : Z -> Prop) : Prop :=
  forall t i a, has_lane t w i -> dom (lane w i a) -> exists v, f (vops_of w (simd t w)) a = Some v /\ s (lane w i a) = Some (lane w i v).
Lemma from_sim2 f w s (dom : Z -> Prop) :
  (forall z, fits w z -> dom z -> exists r, s z = Some r) ->
  (forall o i a, w1632 w -> lane_ok o w i -> dom (get w i a) -> forall r, s (get w i a) = Some r -> exists v, f o a = Some v /\ get w i v = r) ->
  on_lanes2 f w s dom.
Proof.
  intros D S t i a H Hd. sp2 H W H1 Hi K. rewrite lane_get in * by lia. destruct (D _ (get_fits w i a H1) Hd) as (r & Er).
  destruct (S _ i a W (ops_lane _ w i W K) Hd r Er) as (v & Ev & G). exists v. rewrite lane_get by lia. split; [exact Ev|congruence].
Qed.
Lemma f2_exp w ib : w = 16 \/ w = 32 -> 0 <= ib <= w - 3 ->
  on_lanes2 (fun o => v_exp_on_negative_values o w ib) w (exp_on_negative_values Trap w ib) (fun x => x <= 0).
Proof.
  intros W Hib. apply from_sim2.
  - intros z Fz Hz. destruct (exp_negative_in_range Trap w ib z W Hib Fz Hz) as (r & E & _). eauto.
  - intros o i a _ K _. exact (exp_sim o w i W K ib a Hib).
Qed.
Lemma f2_one_over w : w = 16 \/ w = 32 ->
  on_lanes2 (fun o => v_one_over_one_plus_x o w) w (one_over_one_plus_x Trap w) (fun x => 0 <= x) /\
  on_lanes2 (fun o => v_one_minus_x_over_one_plus_x o w) w (one_minus_x_over_one_plus_x Trap w) (fun x => 0 <= x).
Proof.
  intros W. split; apply from_sim2.
  - intros z Fz Hz. apply (proj1 (fits_int _ _)) in Fz. destruct (one_over_ok Trap w z W ltac:(lia)) as (r & E & _). eauto.
  - intros o i a _ K Ha. exact (one_over_sim o w i W K a Ha).
  - intros z Fz Hz. apply (proj1 (fits_int _ _)) in Fz. destruct (one_minus_over_ok Trap w z W ltac:(lia)) as (r & E & _). eauto.
  - intros o i a _ K Ha. exact (one_minus_over_sim o w i W K a Ha).
Qed.
Lemma f2_tanh w ib : w = 16 \/ w = 32 -> 0 <= ib <= w - 4 ->
  on_lanes2 (fun o => v_tanh o w ib) w (ftanh Trap w ib) (fun x => x <> - 2 ^ (w - 1)).
Proof.
  intros W Hib. apply from_sim2.
  - intros z Fz Hz. destruct (tanh_ok Trap w ib z W Hib Fz Hz) as (r & E & _). eauto.
  - intros o i a _ K _ r. exact (tanh_sim o w i W K ib a r Hib).
Qed.
Lemma f2_logistic w ib : w = 16 \/ w = 32 -> 0 <= ib <= w - 3 ->
  on_lanes2 (fun o => v_logistic o w ib) w (logistic Trap w ib) (fun x => x <> - 2 ^ (w - 1)).
Proof.
  intros W Hib. apply from_sim2.
  - intros z Fz Hz. destruct (logistic_ok Trap w ib z W Hib Fz Hz) as (r & E & _). eauto.
  - intros o i a _ K _ r. exact (logistic_sim o w i W K ib a r Hib).
Qed.
