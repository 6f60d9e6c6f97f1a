(* FixedPointProofs2.v: exp_on_interval and exp_on_negative_values stay in
   range without overflow; the steps of the 32-bit evaluation as a chain of
   correctly rounded operations. *)
From Verif Require Import BaseLemmas FixedPointModel FixedPointSpec FixedPointProofs.

Lemma norm32 m z : - 2147483648 <= z <= 2147483647 -> norm m 32 z = Some z.
Proof. intros H. apply norm_fits; [lia|]. unfold int_min, int_max. pows. lia. Qed.
Lemma fits32 z : fits 32 z <-> - 2147483648 <= z <= 2147483647.
Proof. unfold fits. pows. lia. Qed.

Definition in32 (z : Z) : Prop := - 2147483648 <= z <= 2147483647.

Lemma nearest_bounds q n d lo hi : 0 < d -> nearest q n d -> lo * d <= n <= hi * d -> lo <= q <= hi.
Proof. unfold nearest. intros Hd H B. split; nia. Qed.

Lemma nb31 lo hi q n d : nearest q n d -> 0 < d -> lo * d <= n <= hi * d -> lo <= q <= hi.
Proof. intros H Hd B. exact (nearest_bounds q n d lo hi Hd H B). Qed.

Lemma fmul32 a b : in32 a -> in32 b -> a <> -2147483648 \/ b <> -2147483648 ->
  nearest (FMul 32 a b) (a * b) 2147483648 /\ in32 (FMul 32 a b).
Proof.
  intros Ha Hb Hn. split.
  - pose proof (srdhm_spec 32 a b (or_intror eq_refl)) as H. pows.
    destruct H as [H _]; [apply fits32; exact Ha|apply fits32; exact Hb|lia|]. exact H.
  - apply fits32. apply (srdhm_fits 32 a b); [right; reflexivity|apply fits32; exact Ha|apply fits32; exact Hb].
Qed.

Lemma rdpot32_nearest m x e : in32 x -> 0 <= e <= 31 ->
  exists q, RoundingDivideByPOT m 32 x e = Some q /\ nearest q x (2 ^ e).
Proof.
  intros Hx He. exists (rnd_away x (2 ^ e)). split.
  - apply rdpot_eq; [right; reflexivity|apply fits32; exact Hx|lia].
  - assert (0 < 2 ^ e) by (apply Z.pow_pos_nonneg; lia). apply rnd_away_nearest; lia.
Qed.

(* one step of the chain per C++ operation; 1895147668 is exp(-1/8) and
   715827883 is 1/3, in units of 2^-31 *)
Inductive exp_chain (a r : Z) : Prop :=
  exp_chain_intro x x2 x3 x4 x44 p u q :
    x = a + 268435456 ->
    nearest x2 (x * x) 2147483648 -> nearest x3 (x2 * x) 2147483648 -> nearest x4 (x2 * x2) 2147483648 ->
    nearest x44 x4 4 -> nearest p ((x44 + x3) * 715827883) 2147483648 -> nearest u (p + x2) 2 ->
    nearest q (1895147668 * (x + u)) 2147483648 -> r = 1895147668 + q -> exp_chain a r.

Lemma mul_bounds a b A B : - A <= a <= A -> - B <= b <= B -> - (A * B) <= a * b <= A * B.
Proof. intros. split; nia. Qed.
Lemma mul_bounds_nn a b A B : 0 <= a <= A -> 0 <= b <= B -> 0 <= a * b <= A * B.
Proof. intros. split; nia. Qed.
Lemma sq_bounds a A : - A <= a <= A -> 0 <= a * a <= A * A.
Proof. intros. split; nia. Qed.

Lemma exp_interval32 m a : -536870912 <= a <= -1 ->
  exists r, exp_on_interval m 32 a = Some r /\ exp_chain a r /\ 0 < r <= 2147483647.
Proof.
  intros Ha. unfold exp_on_interval.
  rewrite !rci_eq by (first [right; reflexivity | apply fits32; lia]).
  change (rnd_away 1895147668 (2 ^ (32 - 32))) with 1895147668.
  change (rnd_away 715827883 (2 ^ (32 - 32))) with 715827883.
  change (wrapS 32 1895147668) with 1895147668. change (wrapS 32 715827883) with 715827883.
  cbn [bind]. change (ConstantPOT 32 0 (-3)) with (Some 268435456). cbn [bind].
  unfold Add at 1. rewrite norm32 by lia. cbn [bind].
  set (x := a + 268435456).
  assert (Bx : -268435456 <= x <= 268435455) by (unfold x; lia).
  destruct (fmul32 x x) as [N2 _]; [unfold in32; lia|unfold in32; lia|lia|].
  pose proof (sq_bounds x 268435456 ltac:(lia)) as P2.
  assert (B2 := nb31 0 33554432 _ _ _ N2). specialize (B2 ltac:(lia) ltac:(lia)).
  set (x2 := FMul 32 x x) in *. clearbody x2.
  destruct (fmul32 x2 x) as [N3 _]; [unfold in32; lia|unfold in32; lia|lia|].
  pose proof (mul_bounds x2 x 33554432 268435456 ltac:(lia) ltac:(lia)) as P3.
  assert (B3 := nb31 (-4194304) 4194304 _ _ _ N3). specialize (B3 ltac:(lia) ltac:(lia)).
  set (x3 := FMul 32 x2 x) in *. clearbody x3.
  destruct (fmul32 x2 x2) as [N4 _]; [unfold in32; lia|unfold in32; lia|lia|].
  pose proof (sq_bounds x2 33554432 ltac:(lia)) as P4.
  assert (B4 := nb31 0 524288 _ _ _ N4). specialize (B4 ltac:(lia) ltac:(lia)).
  set (x4 := FMul 32 x2 x2) in *. clearbody x4.
  unfold SaturatingRoundingMultiplyByPOT at 1. change (-2 =? 0) with false. change (-2 >? 0) with false.
  change (- -2) with 2. cbn beta iota.
  destruct (rdpot32_nearest m x4 2) as [x44 [E44 N44]]; [unfold in32; lia|lia|].
  change (2 ^ 2) with 4 in N44.
  rewrite E44. cbn [bind].
  assert (B44 := nb31 0 131072 _ _ _ N44). specialize (B44 ltac:(lia) ltac:(lia)).
  unfold Add at 1. rewrite norm32 by lia. cbn [bind].
  destruct (fmul32 (x44 + x3) 715827883) as [NP _]; [unfold in32; lia|unfold in32; lia|lia|].
  assert (BP := nb31 (-1441792) 1441793 _ _ _ NP). specialize (BP ltac:(lia) ltac:(lia)).
  set (p := FMul 32 (x44 + x3) 715827883) in *. clearbody p.
  unfold Add at 1. rewrite norm32 by lia. cbn [bind].
  unfold SaturatingRoundingMultiplyByPOT at 1. change (-1 =? 0) with false. change (-1 >? 0) with false.
  change (- -1) with 1. cbn beta iota.
  destruct (rdpot32_nearest m (p + x2) 1) as [u [EU NU]]; [unfold in32; lia|lia|].
  change (2 ^ 1) with 2 in NU.
  rewrite EU. cbn [bind].
  assert (BU := nb31 (-720896) 17498113 _ _ _ NU). specialize (BU ltac:(lia) ltac:(lia)).
  unfold Add at 1. rewrite norm32 by lia. cbn [bind].
  destruct (fmul32 1895147668 (x + u)) as [NQ _]; [unfold in32; lia|unfold in32; lia|lia|].
  assert (BQ := nb31 (-238000000) 252335500 _ _ _ NQ). specialize (BQ ltac:(lia) ltac:(lia)).
  set (q := FMul 32 1895147668 (x + u)) in *. clearbody q.
  unfold AddSaturatingIf16Bit. change (32 =? 16) with false. cbn iota. unfold Add. rewrite norm32 by lia.
  exists (1895147668 + q). split; [reflexivity|]. split; [|lia].
  exact (exp_chain_intro a _ x x2 x3 x4 x44 p u q eq_refl N2 N3 N4 N44 NP NU NQ eq_refl).
Qed.

Lemma norm16 m z : - 32768 <= z <= 32767 -> norm m 16 z = Some z.
Proof. intros H. apply norm_fits; [lia|]. unfold int_min, int_max. pows. lia. Qed.
Lemma fits16 z : fits 16 z <-> - 32768 <= z <= 32767.
Proof. unfold fits. pows. lia. Qed.
Definition in16 (z : Z) : Prop := - 32768 <= z <= 32767.
Lemma fmul16 a b : in16 a -> in16 b -> a <> -32768 \/ b <> -32768 ->
  nearest (FMul 16 a b) (a * b) 32768 /\ in16 (FMul 16 a b).
Proof.
  intros Ha Hb Hn. split.
  - pose proof (srdhm_spec 16 a b (or_introl eq_refl)) as H. pows.
    destruct H as [H _]; [apply fits16; exact Ha|apply fits16; exact Hb|lia|]. exact H.
  - apply fits16. apply (srdhm_fits 16 a b); [left; reflexivity|apply fits16; exact Ha|apply fits16; exact Hb].
Qed.

Lemma rdpot16_nearest m x e : in16 x -> 0 <= e <= 15 ->
  exists q, RoundingDivideByPOT m 16 x e = Some q /\ nearest q x (2 ^ e).
Proof.
  intros Hx He. exists (rnd_away x (2 ^ e)). split.
  - apply rdpot_eq; [left; reflexivity|apply fits16; exact Hx|lia].
  - assert (0 < 2 ^ e) by (apply Z.pow_pos_nonneg; lia). apply rnd_away_nearest; lia.
Qed.

(* the same chain on 16 bits, where the last addition saturates *)
Inductive exp_chain16 (a r : Z) : Prop :=
  exp_chain16_intro x x2 x3 x4 x44 p u q :
    x = a + 4096 ->
    nearest x2 (x * x) 32768 -> nearest x3 (x2 * x) 32768 -> nearest x4 (x2 * x2) 32768 ->
    nearest x44 x4 4 -> nearest p ((x44 + x3) * 10923) 32768 -> nearest u (p + x2) 2 ->
    nearest q (28918 * (x + u)) 32768 -> r = Z.min 32767 (28918 + q) -> exp_chain16 a r.

Lemma exp_interval16 m a : -8192 <= a <= -1 ->
  exists r, exp_on_interval m 16 a = Some r /\ exp_chain16 a r /\ 0 < r <= 32767.
Proof.
  intros Ha. unfold exp_on_interval.
  rewrite !rci_eq by (first [left; reflexivity | apply fits32; lia]).
  change (wrapS 16 (rnd_away 1895147668 (2 ^ (32 - 16)))) with 28918.
  change (wrapS 16 (rnd_away 715827883 (2 ^ (32 - 16)))) with 10923.
  cbn [bind]. change (ConstantPOT 16 0 (-3)) with (Some 4096). cbn [bind].
  unfold Add at 1. rewrite norm16 by lia. cbn [bind].
  set (x := a + 4096).
  assert (Bx : -4096 <= x <= 4095) by (unfold x; lia).
  destruct (fmul16 x x) as [N2 _]; [unfold in16; lia|unfold in16; lia|lia|].
  pose proof (sq_bounds x 4096 ltac:(lia)) as P2.
  assert (B2 := nb31 0 512 _ _ _ N2). specialize (B2 ltac:(lia) ltac:(lia)).
  set (x2 := FMul 16 x x) in *. clearbody x2.
  destruct (fmul16 x2 x) as [N3 _]; [unfold in16; lia|unfold in16; lia|lia|].
  pose proof (mul_bounds x2 x 512 4096 ltac:(lia) ltac:(lia)) as P3.
  assert (B3 := nb31 (-64) 64 _ _ _ N3). specialize (B3 ltac:(lia) ltac:(lia)).
  set (x3 := FMul 16 x2 x) in *. clearbody x3.
  destruct (fmul16 x2 x2) as [N4 _]; [unfold in16; lia|unfold in16; lia|lia|].
  pose proof (sq_bounds x2 512 ltac:(lia)) as P4.
  assert (B4 := nb31 0 8 _ _ _ N4). specialize (B4 ltac:(lia) ltac:(lia)).
  set (x4 := FMul 16 x2 x2) in *. clearbody x4.
  unfold SaturatingRoundingMultiplyByPOT at 1. change (-2 =? 0) with false. change (-2 >? 0) with false.
  change (- -2) with 2. cbn beta iota.
  destruct (rdpot16_nearest m x4 2) as [x44 [E44 N44]]; [unfold in16; lia|lia|].
  change (2 ^ 2) with 4 in N44.
  rewrite E44. cbn [bind].
  assert (B44 := nb31 0 2 _ _ _ N44). specialize (B44 ltac:(lia) ltac:(lia)).
  unfold Add at 1. rewrite norm16 by lia. cbn [bind].
  destruct (fmul16 (x44 + x3) 10923) as [NP _]; [unfold in16; lia|unfold in16; lia|lia|].
  assert (BP := nb31 (-23) 23 _ _ _ NP). specialize (BP ltac:(lia) ltac:(lia)).
  set (p := FMul 16 (x44 + x3) 10923) in *. clearbody p.
  unfold Add at 1. rewrite norm16 by lia. cbn [bind].
  unfold SaturatingRoundingMultiplyByPOT at 1. change (-1 =? 0) with false. change (-1 >? 0) with false.
  change (- -1) with 1. cbn beta iota.
  destruct (rdpot16_nearest m (p + x2) 1) as [u [EU NU]]; [unfold in16; lia|lia|].
  change (2 ^ 1) with 2 in NU.
  rewrite EU. cbn [bind].
  assert (BU := nb31 (-12) 268 _ _ _ NU). specialize (BU ltac:(lia) ltac:(lia)).
  unfold Add at 1. rewrite norm16 by lia. cbn [bind].
  destruct (fmul16 28918 (x + u)) as [NQ _]; [unfold in16; lia|unfold in16; lia|lia|].
  assert (BQ := nb31 (-3700) 3900 _ _ _ NQ). specialize (BQ ltac:(lia) ltac:(lia)).
  set (q := FMul 16 28918 (x + u)) in *. clearbody q.
  unfold AddSaturatingIf16Bit. change (16 =? 16) with true. cbn iota. rewrite sat_add_eq by lia.
  assert (EC : clamp_int 16 (28918 + q) = Z.min 32767 (28918 + q)).
  { unfold clamp_int, clampZ. pows. change (- (32768)) with (-32768).
    destruct (Z.ltb_spec (28918 + q) (-32768)); [lia|]. destruct (Z.ltb_spec (32768 - 1) (28918 + q)); lia. }
  rewrite EC. eexists. split; [reflexivity|]. split; [|lia].
  exact (exp_chain16_intro a _ x x2 x3 x4 x44 p u q eq_refl N2 N3 N4 N44 NP NU NQ eq_refl).
Qed.

Lemma exp_interval_ok m w a : w1632 w -> - 2 ^ (w - 3) <= a <= -1 ->
  exists r, exp_on_interval m w a = Some r /\ 0 < r <= int_max w.
Proof.
  intros [-> | ->] Ha.
  - destruct (exp_interval16 m a) as [r [E [_ B]]]; [cbn in Ha; lia|]. exists r. auto.
  - destruct (exp_interval32 m a) as [r [E [_ B]]]; [cbn in Ha; lia|]. exists r. auto.
Qed.

(* multiplying by a number in [0, 1) keeps the range *)
Lemma fmul_nonneg w a b : w1632 w -> 0 <= a <= int_max w -> 0 <= b <= int_max w ->
  0 <= FMul w a b <= a.
Proof.
  intros Hw Ha Hb.
  assert (Hfa : fits w a) by (apply fits_int; unfold int_min in *; destruct Hw; subst w; unfold int_max in *; pows; lia).
  assert (Hfb : fits w b) by (apply fits_int; unfold int_min in *; destruct Hw; subst w; unfold int_max in *; pows; lia).
  pose proof (srdhm_spec w a b Hw Hfa Hfb) as H.
  destruct H as [H _].
  - destruct Hw; subst w; pows; lia.
  - unfold FMul. destruct Hw; subst w; unfold int_max in *; pows.
    + apply (nearest_bounds _ (a * b) 32768); [lia|exact H|]. nia.
    + apply (nearest_bounds _ (a * b) 2147483648); [lia|exact H|]. nia.
Qed.

Lemma barrel_ok m w ib rem e k r : w1632 w -> 0 <= ib <= w - 3 -> -2 <= e -> 0 <= k <= 2147418111 ->
  0 <= r <= int_max w ->
  exists r', exp_barrel_shifter m w ib rem e k r = Some r' /\ 0 <= r' <= r.
Proof.
  intros Hw Hib He Hk Hr. unfold exp_barrel_shifter. destruct (ib >? e) eqn:Ec; [|exists r; split; [reflexivity|lia]].
  rewrite rci_eq by (first [exact Hw|apply fits32; lia]). cbn [bind].
  unfold one_shl_int, kFractionalBits.
  assert (Hs : 0 <= w - 1 - ib + e <= 30) by (destruct Hw; lia).
  replace ((0 <=? w - 1 - ib + e) && (w - 1 - ib + e <=? 31)) with true by lia.
  assert (2 ^ (w - 1 - ib + e) <= 2 ^ 30) by (apply Z.pow_le_mono_r; lia).
  assert (0 < 2 ^ (w - 1 - ib + e)) by (apply Z.pow_pos_nonneg; lia).
  change (2 ^ 30) with 1073741824 in *.
  rewrite norm32 by lia. cbn [bind].
  rewrite mask_nz_spec. 
  assert (Hc : 0 <= wrapS w (rnd_away k (2 ^ (32 - w))) <= int_max w).
  { assert (B : 0 <= rnd_away k (2 ^ (32 - w)) <= int_max w).
    { rewrite rnd_away_nonneg by (destruct Hw; subst w; cbn; lia). unfold rnd_up, int_max.
      destruct Hw; subst w; [change (2 ^ (32 - 16)) with 65536|change (2 ^ (32 - 32)) with 1]; pows; lia. }
    rewrite wrapS_small; [lia|destruct Hw; lia|]. unfold int_min in *. destruct Hw; subst w; unfold int_max in *; pows; lia. }
  pose proof (fmul_nonneg w r _ Hw Hr Hc) as B.
  destruct (_ =? 0).
  - rewrite sel_false. exists r. split; [reflexivity|lia].
  - rewrite sel_true. eexists. split; [reflexivity|lia].
Qed.

Lemma land_mask a k : 0 <= k -> Z.land a (2 ^ k - 1) = a mod 2 ^ k.
Proof. intros Hk. rewrite <- Z.land_ones by lia. rewrite Z.ones_equiv. f_equal. Qed.

(* the reduced argument: a_mod in [-1/4, 0) and the remainder a multiple of 1/4 *)
Lemma exp_reduction m w ib a : w1632 w -> 0 <= ib <= w - 3 -> fits w a -> a <= 0 ->
  let k := w - 3 - ib in
  let am := a mod 2 ^ k - 2 ^ k in
  ConstantPOT w ib (-2) = Some (2 ^ k) /\ Sub m w (2 ^ k) 1 = Some (2 ^ k - 1) /\
  Sub m w (BitAnd a (2 ^ k - 1)) (2 ^ k) = Some am /\
  Rescale m w ib 0 am = Some (am * 2 ^ ib) /\ - 2 ^ (w - 3) <= am * 2 ^ ib <= -1 /\
  Sub m w am a = Some (am - a).
Proof.
  intros Hw Hib Hfa Ha k am.
  assert (Hk : 0 <= k <= 29) by (unfold k; destruct Hw; lia).
  assert (K0 : 0 < 2 ^ k) by (apply Z.pow_pos_nonneg; lia).
  assert (KI : 2 ^ k * 2 ^ ib = 2 ^ (w - 3)) by (rewrite <- Z.pow_add_r by lia; f_equal; unfold k; lia).
  assert (I0 : 0 < 2 ^ ib) by (apply Z.pow_pos_nonneg; lia).
  assert (K1 : 2 ^ k <= 2 ^ (w - 3)) by nia.
  assert (W : 2 ^ (w - 1) = 4 * 2 ^ (w - 3)).
  { replace (w - 1) with (2 + (w - 3)) by lia. rewrite Z.pow_add_r by (destruct Hw; lia). reflexivity. }
  assert (W3 : 0 < 2 ^ (w - 3)) by (apply Z.pow_pos_nonneg; destruct Hw; lia).
  pose proof (Z.mod_pos_bound a (2 ^ k) K0) as M.
  pose proof (Z.div_mod a (2 ^ k) ltac:(lia)) as D.
  assert (Bam : - 2 ^ k <= am <= -1) by (unfold am; lia).
  assert (Hw1 : 1 <= w) by (destruct Hw; lia).
  unfold fits in Hfa.
  split.
  { unfold ConstantPOT, kFractionalBits. replace (w - 1 - ib + -2) with k by (unfold k; lia).
    replace ((0 <=? k) && (k <? 31)) with true by lia. f_equal. apply wrapS_small; [exact Hw1|].
    unfold int_min, int_max. lia. }
  split. { unfold Sub. apply norm_fits; [exact Hw1|]. unfold int_min, int_max. lia. }
  split. { unfold Sub, BitAnd. rewrite land_mask by lia. apply norm_fits; [exact Hw1|]. unfold int_min, int_max. fold am. lia. }
  assert (Bm : - 2 ^ (w - 3) <= am * 2 ^ ib <= -1) by (rewrite <- KI; nia).
  split.
  { unfold Rescale. replace (ib - 0) with ib by lia. destruct (Z.eq_dec ib 0) as [->|Hz].
    - unfold SaturatingRoundingMultiplyByPOT. rewrite Z.eqb_refl. f_equal. change (2 ^ 0) with 1. lia.
    - rewrite srmpot_pos_eq; [|exact Hw|unfold fits; lia|destruct Hw; lia|destruct Hw; lia].
      f_equal. unfold clamp_int, clampZ.
      destruct (Z.ltb_spec (am * 2 ^ ib) (- 2 ^ (w - 1))); [lia|].
      destruct (Z.ltb_spec (2 ^ (w - 1) - 1) (am * 2 ^ ib)); lia. }
  split; [exact Bm|].
  unfold Sub. apply norm_fits; [exact Hw1|]. unfold int_min, int_max.
  assert (a / 2 ^ k <= 0) by (apply Z.div_le_upper_bound; lia).
  assert (- (4 * 2 ^ ib) <= a / 2 ^ k) by (apply Z.div_le_lower_bound; nia).
  replace (am - a) with (- (2 ^ k * (a / 2 ^ k)) - 2 ^ k) by (unfold am; lia).
  split; nia.
Qed.

Theorem exp_negative_in_range m w ib a : w1632 w -> 0 <= ib <= w - 3 -> fits w a -> a <= 0 ->
  exists r, exp_on_negative_values m w ib a = Some r /\ 0 <= r <= One w 0 /\ (a = 0 -> r = One w 0).
Proof.
  intros Hw Hib Hfa Ha. unfold exp_on_negative_values.
  destruct (exp_reduction m w ib a Hw Hib Hfa Ha) as [E1 [E2 [E3 [E4 [B E5]]]]].
  rewrite E1. cbn [bind]. rewrite E2. cbn [bind]. rewrite E3. cbn [bind]. rewrite E4. cbn [bind].
  destruct (exp_interval_ok m w _ Hw B) as [r0 [ER [R1 R2]]]. rewrite ER. cbn [bind]. rewrite E5. cbn [bind].
  clear E1 E2 E3 E4 E5 ER.
  generalize (a mod 2 ^ (w - 3 - ib) - 2 ^ (w - 3 - ib) - a) as rem. intros rem.
  destruct (barrel_ok m w ib rem (-2) 1672461947 r0) as [r1 [-> B1]]; try lia; auto. cbn [bind].
  destruct (barrel_ok m w ib rem (-1) 1302514674 r1) as [r2 [-> B2]]; try lia; auto. cbn [bind].
  destruct (barrel_ok m w ib rem 0 790015084 r2) as [r3 [-> B3]]; try lia; auto. cbn [bind].
  destruct (barrel_ok m w ib rem 1 290630308 r3) as [r4 [-> B4]]; try lia; auto. cbn [bind].
  destruct (barrel_ok m w ib rem 2 39332535 r4) as [r5 [-> B5]]; try lia; auto. cbn [bind].
  destruct (barrel_ok m w ib rem 3 720401 r5) as [r6 [-> B6]]; try lia; auto. cbn [bind].
  destruct (barrel_ok m w ib rem 4 242 r6) as [r7 [-> B7]]; try lia; auto. cbn [bind].
  assert (HC : exists r8, (if ib >? 5 then
      let* p := one_shl_int m (36 - ib) in
      let* clamp := RescaleConstantInitializer m w (- p) in
      Some (SelectUsingMask (MaskIfLessThan a clamp) 0 r7)
    else Some r7) = Some r8 /\ 0 <= r8 <= r7).
  { destruct (ib >? 5) eqn:E5; [|exists r7; split; [reflexivity|lia]].
    unfold one_shl_int. replace ((0 <=? 36 - ib) && (36 - ib <=? 31)) with true by (destruct Hw; lia).
    assert (2 ^ (36 - ib) <= 2 ^ 30) by (apply Z.pow_le_mono_r; lia).
    assert (0 < 2 ^ (36 - ib)) by (apply Z.pow_pos_nonneg; destruct Hw; lia).
    change (2 ^ 30) with 1073741824 in *.
    rewrite norm32 by lia. cbn [bind]. rewrite rci_eq by (first [exact Hw|apply fits32; lia]). cbn [bind].
    rewrite MaskIfLessThan_eq, sel_mask. destruct (_ <? _); eexists; (split; [reflexivity|lia]). }
  destruct HC as [r8 [-> B8]]. cbn [bind].
  rewrite MaskIfZero_eq, sel_mask.
  assert (O : One w 0 = int_max w) by reflexivity. rewrite O.
  eexists. split; [reflexivity|]. split.
  - destruct (a =? 0); lia.
  - intros ->. reflexivity.
Qed.
