(* SimdFull.v: the statements used by Props_Simd.v *)
From Verif Require Import Base BaseLemmas FixedPointModel FixedPointSpec FixedPointProofs FixedPointProofs2 FixedPointProofs3 FixedPointProofs5
  SimdModel SimdSpec SimdProofs SimdProofs2 SimdProofs3 SimdProofs4.

Lemma lane_get w i v : 1 <= w -> 0 <= i -> lane w i v = get w i v.
Proof.
  intros Hw Hi. unfold lane, get. rewrite Z.shiftr_div_pow2 by lia. set (z := v / 2 ^ (w * i)).
  assert (HP : 0 < 2 ^ (w - 1)) by (apply Z.pow_pos_nonneg; lia). pose proof (pow_split w Hw) as E.
  pose proof (Z.mod_pos_bound z (2 ^ w) ltac:(lia)) as B. set (u := z mod 2 ^ w) in *.
  assert (M : forall y, y mod 2 ^ w = u -> int_min w <= y <= int_max w -> wrapS w z = y).
  { intros y Hy Ry. rewrite <- (wrapS_small w y Hw Ry). apply wrapS_eq_mod; [exact Hw|]. now symmetry. }
  unfold int_min, int_max in M. cbv zeta. destruct (u <? 2 ^ (w - 1)) eqn:L; symmetry; apply M.
  - apply Z.mod_small. lia.
  - lia.
  - rewrite <- (Z.mod_add (u - 2 ^ w) 1) by lia. rewrite Z.mod_small; lia.
  - lia.
Qed.
Lemma a_lane_split w i : a_lane w i -> w1632 w /\ 0 <= i < lanes w /\ 1 <= w.
Proof. intros [(-> & H) | (-> & H)]; unfold w1632, lanes; cbn; lia. Qed.
Ltac sp H W Hi H1 := destruct (a_lane_split _ _ H) as (W & Hi & H1).
Ltac lanes2get := rewrite ?lane_get by lia.

Lemma f_bits w i a b : a_lane w i ->
  lane w i (sse_BitAnd a b) = BitAnd (lane w i a) (lane w i b) /\ lane w i (neon_BitAnd a b) = BitAnd (lane w i a) (lane w i b) /\
  lane w i (sse_BitOr a b) = BitOr (lane w i a) (lane w i b) /\ lane w i (neon_BitOr a b) = BitOr (lane w i a) (lane w i b) /\
  lane w i (sse_BitXor a b) = BitXor (lane w i a) (lane w i b) /\ lane w i (neon_BitXor a b) = BitXor (lane w i a) (lane w i b) /\
  lane w i (sse_BitNot w a) = BitNot (lane w i a) /\ lane w i (neon_BitNot w a) = BitNot (lane w i a).
Proof.
  intros H. sp H W Hi H1. lanes2get.
  repeat split; [apply g_sse_and|apply g_neon_and|apply g_sse_or|apply g_neon_or|apply g_sse_xor|apply g_neon_xor|apply g_sse_not|apply g_neon_not]; assumption.
Qed.
Lemma f_arith w i a b : a_lane w i ->
  Add Wrap w (lane w i a) (lane w i b) = Some (lane w i (sse_Add w a b)) /\ Add Wrap w (lane w i a) (lane w i b) = Some (lane w i (neon_Add w a b)) /\
  Sub Wrap w (lane w i a) (lane w i b) = Some (lane w i (sse_Sub w a b)) /\ Sub Wrap w (lane w i a) (lane w i b) = Some (lane w i (neon_Sub w a b)) /\
  Neg Wrap w (lane w i a) = Some (lane w i (sse_Neg w a)) /\ Neg Wrap w (lane w i a) = Some (lane w i (neon_Neg w a)) /\
  Mul Wrap w (lane w i a) (lane w i b) = Some (lane w i (sse_Mul w a b)).
Proof.
  intros H. sp H W Hi H1. lanes2get. unfold Add, Sub, Neg, Mul, norm.
  repeat split; f_equal; symmetry; [apply g_add|apply g_add|apply g_sub|apply g_sub|apply g_sse_neg|apply g_neon_neg|apply g_mul]; assumption.
Qed.
Lemma f_shr w i a n : a_lane w i -> 0 <= n <= 31 ->
  ShiftRight (lane w i a) n = Some (lane w i (sse_ShiftRight w a n)) /\ ShiftRight (lane w i a) n = Some (lane w i (neon_ShiftRight w a n)).
Proof.
  intros H Hn. sp H W Hi H1. lanes2get. unfold ShiftRight. replace ((0 <=? n) && (n <? 32)) with true by lia.
  split; f_equal; symmetry; [apply g_sse_shr|apply g_neon_shr]; (assumption || lia).
Qed.
Lemma f_shl w i a n : a_lane w i -> 0 <= n <= 30 ->
  - 2 ^ (w - 1) <= lane w i a * 2 ^ n <= 2 ^ (w - 1) - 1 ->
  ShiftLeft Trap w (lane w i a) n = Some (lane w i (sse_ShiftLeft w a n)) /\ ShiftLeft Trap w (lane w i a) n = Some (lane w i (neon_ShiftLeft w a n)).
Proof.
  intros H Hn R. sp H W Hi H1. rewrite !lane_get in * by lia. rewrite shl_eq by lia.
  rewrite g_sse_shl, g_neon_shl by (assumption || lia). rewrite wrapS_small by (unfold int_min, int_max; lia).
  unfold clampZ, int_min, int_max. replace (get w i a * 2 ^ n <? - 2 ^ (w - 1)) with false by lia.
  replace (2 ^ (w - 1) - 1 <? get w i a * 2 ^ n) with false by lia. auto.
Qed.
Lemma f_shl_refuted : exists a, a_register a /\ (forall i, 0 <= i < 4 -> lane 32 i a = 1073741824) /\
  ShiftLeft Trap 32 1073741824 1 = Some 2147483647 /\ forall i, 0 <= i < 4 ->
  lane 32 i (sse_ShiftLeft 32 a 1) = -2147483648 /\ lane 32 i (neon_ShiftLeft 32 a 1) = -2147483648.
Proof.
  exists (mm_set1 32 1073741824). split; [apply pack_range; auto|].
  assert (L : forall i, 0 <= i < 4 -> get 32 i (mm_set1 32 1073741824) = 1073741824).
  { intros i Hi. rewrite (g_dup 32 i (or_intror eq_refl) Hi). reflexivity. }
  split; [intros i Hi; rewrite lane_get by lia; auto|]. split; [reflexivity|].
  intros i Hi. rewrite !lane_get by lia. rewrite (g_sse_shl 32 i (or_intror eq_refl) Hi), (g_neon_shl 32 i (or_intror eq_refl) Hi) by lia.
  rewrite L by lia. split; reflexivity.
Qed.
Lemma f_masks w i a b : a_lane w i ->
  let x := lane w i a in let y := lane w i b in
  (lane w i (sse_MaskIfEqual w a b) = MaskIfEqual x y /\ lane w i (neon_MaskIfEqual w a b) = MaskIfEqual x y) /\
  (lane w i (sse_MaskIfNotEqual w a b) = MaskIfNotEqual x y /\ lane w i (neon_MaskIfNotEqual w a b) = MaskIfNotEqual x y) /\
  (lane w i (sse_MaskIfGreaterThan w a b) = MaskIfGreaterThan x y /\ lane w i (neon_MaskIfGreaterThan w a b) = MaskIfGreaterThan x y) /\
  (lane w i (sse_MaskIfGreaterThanOrEqual w a b) = MaskIfGreaterThanOrEqual x y /\ lane w i (neon_MaskIfGreaterThanOrEqual w a b) = MaskIfGreaterThanOrEqual x y) /\
  (lane w i (sse_MaskIfLessThan w a b) = MaskIfLessThan x y /\ lane w i (neon_MaskIfLessThan w a b) = MaskIfLessThan x y) /\
  (lane w i (sse_MaskIfLessThanOrEqual w a b) = MaskIfLessThanOrEqual x y /\ lane w i (neon_MaskIfLessThanOrEqual w a b) = MaskIfLessThanOrEqual x y) /\
  (lane w i (sse_MaskIfZero w a) = MaskIfZero x /\ lane w i (neon_MaskIfZero w a) = MaskIfZero x) /\
  (lane w i (sse_MaskIfNonZero w a) = MaskIfNonZero x /\ lane w i (neon_MaskIfNonZero w a) = MaskIfNonZero x).
Proof.
  intros H. sp H W Hi H1. cbv zeta. lanes2get.
  repeat split; [apply g_sse_eq|apply g_neon_eq|apply g_sse_ne|apply g_neon_ne|apply g_sse_gt|apply g_neon_gt|apply g_sse_ge|apply g_neon_ge|
    apply g_sse_lt|apply g_neon_lt|apply g_sse_le|apply g_neon_le|apply g_sse_z|apply g_neon_z|apply g_sse_nz|apply g_neon_nz]; assumption.
Qed.
Lemma f_select w i m a b : a_lane w i ->
  lane w i (sse_SelectUsingMask m a b) = SelectUsingMask (lane w i m) (lane w i a) (lane w i b) /\
  lane w i (neon_SelectUsingMask m a b) = SelectUsingMask (lane w i m) (lane w i a) (lane w i b).
Proof. intros H. sp H W Hi H1. lanes2get. split; [apply g_sse_sel|apply g_neon_sel]; assumption. Qed.
Lemma width_lane w i : w = 16 \/ w = 32 -> (a_lane w i <-> 0 <= i < lanes w).
Proof. intros [-> | ->]; unfold a_lane, lanes; cbn; lia. Qed.
Lemma f_any w a : w = 16 \/ w = 32 -> a_register a ->
  (sse_Any a = true <-> exists i, a_lane w i /\ lane w i a <> 0) /\ (neon_Any w a = true <-> exists i, a_lane w i /\ lane w i a <> 0).
Proof.
  intros W Ha. assert (H1 : 1 <= w) by (destruct W; lia).
  assert (E : (exists i, a_lane w i /\ lane w i a <> 0) <-> exists i, 0 <= i < lanes w /\ get w i a <> 0).
  { split; intros (i & Hi & N); exists i.
    - apply (width_lane w i W) in Hi. rewrite lane_get in N by lia. auto.
    - rewrite lane_get by lia. split; [now apply width_lane|exact N]. }
  rewrite E. split; [now apply sse_any|now apply neon_any].
Qed.
Lemma f_all w a : w = 16 \/ w = 32 -> a_mask w a -> (neon_All w a = true <-> forall i, a_lane w i -> lane w i a = -1).
Proof.
  intros W M. assert (H1 : 1 <= w) by (destruct W; lia). rewrite (neon_all w a W).
  - split; intros A i Hi.
    + apply (width_lane w i W) in Hi. rewrite lane_get by lia. auto.
    + rewrite <- lane_get by lia. apply A. now apply width_lane.
  - intros i Hi. rewrite <- lane_get by lia. apply M. now apply width_lane.
Qed.
Lemma f_sse_all_refuted : exists a, a_register a /\ a_mask 32 a /\ a_mask 16 a /\ sse_All a = true /\
  (forall i, a_lane 32 i -> lane 32 i a = 0) /\ forall i, a_lane 16 i -> lane 16 i a = 0.
Proof.
  assert (Z0 : forall w i, a_lane w i -> lane w i 0 = 0).
  { intros w i H. sp H W Hi H1. rewrite lane_get by lia. unfold get. rewrite Z.shiftr_0_l. now apply wrapS_0. }
  exists 0. split; [unfold a_register; cbn; lia|]. split; [intros i Hi; left; auto|]. split; [intros i Hi; left; auto|].
  split; [apply sse_all_true|]. auto.
Qed.
Lemma f_half w i a b : a_lane w i ->
  let h := (lane w i a + lane w i b + 1) / 2 in
  lane w i (if w =? 16 then sse_RoundingHalfSum16 a b else sse_RoundingHalfSum32 a b) = h /\ lane w i (neon_RoundingHalfSum w a b) = h /\
  nearest_up h (lane w i a + lane w i b) 2 /\
  (0 <= lane w i a + lane w i b \/ Z.even (lane w i a + lane w i b) = true -> RoundingHalfSum w (lane w i a) (lane w i b) = h).
Proof.
  intros H. sp H W Hi H1. cbv zeta. lanes2get.
  split. { destruct W as [-> | ->]; [apply g_sse_half16|apply g_sse_half32]; exact Hi. }
  split; [now apply g_neon_half|].
  set (s := get w i a + get w i b).
  assert (E2 : rnd_up s 2 = (s + 1) / 2) by (unfold rnd_up; lia).
  split. { rewrite <- E2. apply rnd_up_nearest. lia. }
  intros C. rewrite rhs_eq by (try (apply get_fits; lia); destruct W; lia). fold s. rewrite <- E2.
  destruct (Z_lt_le_dec s 0) as [N | P]; [|apply rnd_away_nonneg; lia].
  destruct C as [C | C]; [lia|]. rewrite rnd_away_neg by lia. unfold rnd_up. apply Z.even_spec in C. destruct C as (k & ->). lia.
Qed.
Lemma f_half_refuted : exists a b, a_register a /\ a_register b /\ forall i, 0 <= i < 4 ->
  RoundingHalfSum 32 (lane 32 i a) (lane 32 i b) = -2 /\ lane 32 i (sse_RoundingHalfSum32 a b) = -1 /\ lane 32 i (neon_RoundingHalfSum 32 a b) = -1.
Proof.
  exists (mm_set1 32 (-3)), (mm_set1 32 0). split; [apply pack_range; auto|]. split; [apply pack_range; auto|].
  intros i Hi. rewrite !lane_get by lia. rewrite g_sse_half32 by lia. rewrite (g_neon_half 32 i (or_intror eq_refl) Hi).
  rewrite !(g_dup 32 i (or_intror eq_refl) Hi). repeat split; reflexivity.
Qed.
Lemma f_satadd i a b : 0 <= i < 8 ->
  lane 16 i (mm_adds 16 a b) = SaturatingAdd 16 (lane 16 i a) (lane 16 i b) /\ lane 16 i (vqadd 16 a b) = SaturatingAdd 16 (lane 16 i a) (lane 16 i b).
Proof.
  intros Hi. lanes2get. rewrite sat_add_eq by lia.
  split; [exact (g_qadd 16 i (or_introl eq_refl) Hi a b)|exact (g_qadd 16 i (or_introl eq_refl) Hi a b)].
Qed.
Lemma f_mul w i a b : a_lane w i ->
  let p := SaturatingRoundingDoublingHighMul w (lane w i a) (lane w i b) in
  lane w i (neon_SaturatingRoundingDoublingHighMul w a b) = p /\
  (w = 16 -> lane w i (sse_SaturatingRoundingDoublingHighMul16 a b) = p) /\
  (w = 32 -> ~ (lane w i a = - 2 ^ 31 /\ lane w i b = - 2 ^ 31) -> lane w i (sse_SaturatingRoundingDoublingHighMul32 a b) = p).
Proof.
  intros H. sp H W Hi H1. cbv zeta. lanes2get. split; [now apply neon_mul|].
  split; [intros ->; apply sse_mul16; exact Hi|]. intros -> N. apply sse_mul32; [exact Hi|exact N].
Qed.
Lemma f_mul_refuted : exists a, a_register a /\ forall i, 0 <= i < 4 -> lane 32 i a = - 2 ^ 31 /\
  SaturatingRoundingDoublingHighMul 32 (- 2 ^ 31) (- 2 ^ 31) = 2 ^ 31 - 1 /\ lane 32 i (sse_SaturatingRoundingDoublingHighMul32 a a) = - 2 ^ 31.
Proof.
  exists (mm_set1 32 (- 2 ^ 31)). split; [apply pack_range; auto|]. intros i Hi. rewrite !lane_get by lia.
  assert (E : get 32 i (mm_set1 32 (- 2 ^ 31)) = - 2 ^ 31) by (rewrite (g_dup 32 i (or_intror eq_refl) Hi); reflexivity).
  split; [exact E|]. split; [reflexivity|]. exact (proj1 (sse_mul32_min i _ _ Hi E E)).
Qed.
Lemma f_rdpot w i x e : a_lane w i -> 0 <= e <= w - 1 ->
  lane w i (neon_RoundingDivideByPOT w x e) = rnd_away (lane w i x) (2 ^ e) /\
  (exists r, sse_RoundingDivideByPOT w x e = Some r /\ lane w i r = rnd_away (lane w i x) (2 ^ e)) /\
  RoundingDivideByPOT Trap w (lane w i x) e = Some (rnd_away (lane w i x) (2 ^ e)) /\
  nearest_away (rnd_away (lane w i x) (2 ^ e)) (lane w i x) (2 ^ e).
Proof.
  intros H He. sp H W Hi H1. lanes2get. split; [now apply neon_rdpot|]. split; [|split].
  - pose proof (sse_rdpot w i x e W Hi) as R. rewrite rdpot_eq in R by (try (apply get_fits; lia); assumption).
    destruct (sse_RoundingDivideByPOT w x e) as [r |]; [|discriminate]. exists r. split; [reflexivity|]. lanes2get. cbn [option_map] in R. congruence.
  - apply rdpot_eq; [exact W|apply get_fits; lia|exact He].
  - apply rnd_away_nearest. apply Z.pow_pos_nonneg; lia.
Qed.
Lemma f_sse_rdpot_all w i x e r : a_lane w i -> sse_RoundingDivideByPOT w x e = Some r ->
  RoundingDivideByPOT Wrap w (lane w i x) e = Some (lane w i r).
Proof. intros H E. sp H W Hi H1. lanes2get. rewrite <- (sse_rdpot w i x e W Hi), E. reflexivity. Qed.
Lemma f_rdpotv w i x e : a_lane w i -> 0 <= lane w i e <= w - 1 ->
  lane w i (neon_RoundingDivideByPOTV w x e) = rnd_away (lane w i x) (2 ^ lane w i e).
Proof. intros H He. sp H W Hi H1. rewrite !lane_get in * by lia. now apply neon_rdpotv. Qed.
Lemma f_rdpot_refuted : exists x, a_register x /\ forall i, 0 <= i < 8 ->
  ~ nearest_away (lane 16 i (neon_RoundingDivideByPOT 16 x 16)) (lane 16 i x) (2 ^ 16).
Proof.
  exists (mm_set1 16 (-32768)). split; [apply pack_range; auto|]. intros i Hi. rewrite !lane_get by lia.
  assert (W : w1632 16) by now left. assert (Hl : 0 <= i < lanes 16) by exact Hi.
  assert (E : get 16 i (neon_RoundingDivideByPOT 16 (mm_set1 16 (-32768)) 16) = 0).
  { unfold neon_RoundingDivideByPOT, vrshl, vqadd, vshr_n, vand. rewrite !get_map2, !get_map1, !get_and by lia.
    rewrite ?(g_ndup 16 i W Hl), ?(g_dup 16 i W Hl). vm_compute. reflexivity. }
  rewrite E, (g_dup 16 i W Hl). change (wrapS 16 (-32768)) with (-32768). intros (_ & T).
  assert (is_tie (-32768) (2 ^ 16)) by (exists (-1); reflexivity). specialize (T H). cbn in T. lia.
Qed.
Lemma f_srm w i e x : a_lane w i -> - (w - 1) <= e <= w - 1 -> e <= 30 ->
  SaturatingRoundingMultiplyByPOT Trap w e (lane w i x) = Some (lane w i (neon_SaturatingRoundingMultiplyByPOT w e x)) /\
  exists r, sse_SaturatingRoundingMultiplyByPOT w e x = Some r /\ SaturatingRoundingMultiplyByPOT Trap w e (lane w i x) = Some (lane w i r).
Proof.
  intros H He H30. sp H W Hi H1. lanes2get. split; [now apply neon_srm|].
  destruct (sse_srm w i e x W Hi He H30) as (r & E & S). exists r. lanes2get. auto.
Qed.

(* ------------------------------------------------------------------ *)
(* the two instances of the functions *)
Definition on_lanes (f : vops -> reg -> option reg) (w : Z) (s : Z -> option Z) (dom : Z -> Prop) : Prop :=
  forall i a, a_lane w i -> dom (lane w i a) ->
  (exists v, f (sse w) a = Some v /\ s (lane w i a) = Some (lane w i v)) /\ (exists v, f (neon w) a = Some v /\ s (lane w i a) = Some (lane w i v)).
Lemma from_sim f w s (dom : Z -> Prop) :
  (forall z, fits w z -> dom z -> exists r, s z = Some r) ->
  (forall o i a, w1632 w -> lane_ok o w i -> dom (get w i a) -> forall r, s (get w i a) = Some r -> exists v, f o a = Some v /\ get w i v = r) ->
  on_lanes f w s dom.
Proof.
  intros D S i a H Hd. sp H W Hi H1. rewrite lane_get in * by lia. destruct (D _ (get_fits w i a H1) Hd) as (r & Er).
  split.
  - destruct (S (sse w) i a W (sse_lane_ok w i W Hi) Hd r Er) as (v & Ev & G). exists v. rewrite lane_get by lia. split; [exact Ev|congruence].
  - destruct (S (neon w) i a W (neon_lane_ok w i W Hi) Hd r Er) as (v & Ev & G). exists v. rewrite lane_get by lia. split; [exact Ev|congruence].
Qed.
Lemma f_exp w ib : w = 16 \/ w = 32 -> 0 <= ib <= w - 3 ->
  on_lanes (fun o => v_exp_on_negative_values o w ib) w (exp_on_negative_values Trap w ib) (fun x => x <= 0).
Proof.
  intros W Hib. apply from_sim.
  - intros z Fz Hz. destruct (exp_negative_in_range Trap w ib z W Hib Fz Hz) as (r & E & _). eauto.
  - intros o i a _ K _. exact (exp_sim o w i W K ib a Hib).
Qed.
Lemma f_one_over w : w = 16 \/ w = 32 ->
  on_lanes (fun o => v_one_over_one_plus_x o w) w (one_over_one_plus_x Trap w) (fun x => 0 <= x) /\
  on_lanes (fun o => v_one_minus_x_over_one_plus_x o w) w (one_minus_x_over_one_plus_x Trap w) (fun x => 0 <= x).
Proof.
  intros W. split; apply from_sim.
  - intros z Fz Hz. apply (proj1 (fits_int _ _)) in Fz. destruct (one_over_ok Trap w z W ltac:(lia)) as (r & E & _). eauto.
  - intros o i a _ K Ha. exact (one_over_sim o w i W K a Ha).
  - intros z Fz Hz. apply (proj1 (fits_int _ _)) in Fz. destruct (one_minus_over_ok Trap w z W ltac:(lia)) as (r & E & _). eauto.
  - intros o i a _ K Ha. exact (one_minus_over_sim o w i W K a Ha).
Qed.
Lemma f_tanh w ib : w = 16 \/ w = 32 -> 0 <= ib <= w - 4 ->
  on_lanes (fun o => v_tanh o w ib) w (ftanh Trap w ib) (fun x => x <> - 2 ^ (w - 1)).
Proof.
  intros W Hib. apply from_sim.
  - intros z Fz Hz. destruct (tanh_ok Trap w ib z W Hib Fz Hz) as (r & E & _). eauto.
  - intros o i a _ K _ r. exact (tanh_sim o w i W K ib a r Hib).
Qed.
Lemma f_logistic w ib : w = 16 \/ w = 32 -> 0 <= ib <= w - 3 ->
  on_lanes (fun o => v_logistic o w ib) w (logistic Trap w ib) (fun x => x <> - 2 ^ (w - 1)).
Proof.
  intros W Hib. apply from_sim.
  - intros z Fz Hz. destruct (logistic_ok Trap w ib z W Hib Fz Hz) as (r & E & _). eauto.
  - intros o i a _ K _ r. exact (logistic_sim o w i W K ib a r Hib).
Qed.
