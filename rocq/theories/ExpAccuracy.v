(* ExpAccuracy.v: exp_on_negative_values against the real exponential function *)
From Coq Require Import Reals Lra.
From Verif Require Import Base BaseLemmas FixedPointModel FixedPointSpec FixedPointProofs FixedPointProofs2 FixedPointProofs3 FixedPointProofs5 ExpReal.
Local Open Scope R_scope.

Lemma nearest_R q n d : nearest q n d -> Rabs (IZR q * IZR d - IZR n) <= IZR d / 2.
Proof.
  unfold nearest. intros H. rewrite <- mult_IZR, <- minus_IZR, Rabs_Zabs.
  apply IZR_le in H. rewrite mult_IZR in H. lra.
Qed.
Lemma Rabs_le_iff x b : Rabs x <= b <-> - b <= x <= b.
Proof. unfold Rabs. destruct (Rcase_abs x); lra. Qed.

(* rounding of a product of approximations *)
Lemma mul_err U p q r P Q Ep Eq Bp Bq : 0 < U -> Rabs (r * U - p * q) <= U / 2 ->
  Rabs (p - U * P) <= Ep -> Rabs (q - U * Q) <= Eq -> Rabs Q <= Bq -> Rabs p <= Bp * U ->
  Rabs (r - U * (P * Q)) <= 1 / 2 + Bp * Eq + Bq * Ep.
Proof.
  intros HU H0 Hp Hq HQ HP.
  replace (r - U * (P * Q)) with ((r * U - p * q) / U + (p / U * (q - U * Q) + Q * (p - U * P))) by (field; lra).
  eapply Rle_trans; [apply Rabs_triang|].
  assert (A1 : Rabs ((r * U - p * q) / U) <= 1 / 2).
  { unfold Rdiv. rewrite Rabs_mult, (Rabs_right (/ U)) by (left; apply Rinv_0_lt_compat; lra).
    apply (Rmult_le_reg_r U); [lra|]. rewrite Rmult_assoc, Rinv_l by lra. lra. }
  assert (A2 : Rabs (p / U * (q - U * Q)) <= Bp * Eq).
  { rewrite Rabs_mult. apply Rmult_le_compat; try apply Rabs_pos; [|exact Hq].
    unfold Rdiv. rewrite Rabs_mult, (Rabs_right (/ U)) by (left; apply Rinv_0_lt_compat; lra).
    apply (Rmult_le_reg_r U); [lra|]. rewrite Rmult_assoc, Rinv_l by lra. lra. }
  assert (A3 : Rabs (Q * (p - U * P)) <= Bq * Ep).
  { rewrite Rabs_mult. apply Rmult_le_compat; try apply Rabs_pos; assumption. }
  pose proof (Rabs_triang (p / U * (q - U * Q)) (Q * (p - U * P))). lra.
Qed.
Lemma abs_pow_le X B n : Rabs X <= B -> Rabs (X ^ n) <= B ^ n.
Proof. intros H. rewrite <- RPow_abs. apply pow_incr. split; [apply Rabs_pos|exact H]. Qed.

(* the polynomial computed with roundings *)
Lemma chain_err U c0 c13 C0 X x x2 x3 x4 x44 p u q :
  32768 <= U -> Rabs X <= 1 / 8 -> x = U * X ->
  Rabs (x2 * U - x * x) <= U / 2 -> Rabs (x3 * U - x2 * x) <= U / 2 -> Rabs (x4 * U - x2 * x2) <= U / 2 ->
  Rabs (x44 * 4 - x4) <= 4 / 2 -> Rabs (p * U - (x44 + x3) * c13) <= U / 2 -> Rabs (u * 2 - (p + x2)) <= 2 / 2 ->
  Rabs (q * U - c0 * (x + u)) <= U / 2 ->
  Rabs (c13 - U * (1 / 3)) <= 1 / 3 -> Rabs (c0 - U * C0) <= 1 / 2 -> 0 <= C0 <= 883 / 1000 ->
  Rabs (c0 + q - U * (C0 * poly4 X)) <= 22 / 10.
Proof.
  intros HU HX -> H2 H3 H4 H44 Hp Hu Hq Hc13 Hc0 HC0.
  pose proof (abs_pow_le X _ 2 HX) as X2. pose proof (abs_pow_le X _ 3 HX) as X3. pose proof (abs_pow_le X _ 4 HX) as X4.
  unfold poly4. cbn [pow] in X2, X3, X4 |- *. rewrite !Rmult_1_r in *.
  set (Y2 := X * X) in *. set (Y3 := X * Y2) in *. set (Y4 := X * Y3) in *.
  assert (E0 : Rabs (U * X - U * X) <= 0) by (unfold Rminus; rewrite Rplus_opp_r, Rabs_R0; lra).
  assert (AX : Rabs (U * X) <= 1 / 8 * U).
  { rewrite Rabs_mult, (Rabs_right U) by lra. rewrite Rmult_comm. apply Rmult_le_compat_r; lra. }
  assert (AY : forall Y B, Rabs Y <= B -> Rabs (U * Y) <= B * U).
  { intros Y B HB. rewrite Rabs_mult, (Rabs_right U) by lra. rewrite Rmult_comm. apply Rmult_le_compat_r; lra. }
  pose proof (mul_err U (U * X) (U * X) x2 X X 0 0 (1 / 8) (1 / 8) ltac:(lra) H2 E0 E0 HX AX) as G2. fold Y2 in G2.
  pose proof (AY Y2 _ X2) as M2. pose proof (AY Y3 _ X3) as M3. pose proof (AY Y4 _ X4) as M4.
  assert (B2 : Rabs x2 <= 1 / 60 * U).
  { rewrite Rabs_le_iff in *. lra. }
  pose proof (mul_err U x2 (U * X) x3 Y2 X (1 / 2) 0 (1 / 60) (1 / 8) ltac:(lra) H3 ltac:(lra) E0 HX B2) as G3.
  replace (Y2 * X) with Y3 in G3 by (unfold Y3; ring).
  pose proof (mul_err U x2 x2 x4 Y2 Y2 (1 / 2) (1 / 2) (1 / 60) (1 / 64) ltac:(lra) H4 ltac:(lra) ltac:(lra) ltac:(lra) B2) as G4.
  replace (Y2 * Y2) with Y4 in G4 by (unfold Y4, Y3, Y2; ring).
  assert (G44 : Rabs (x44 - U * (Y4 / 4)) <= 1 / 2 + 13 / 100).
  { clear - G4 H44. rewrite Rabs_le_iff in *. lra. }
  assert (Gs : Rabs (x44 + x3 - U * (Y4 / 4 + Y3)) <= 12 / 10).
  { clear - G44 G3. rewrite Rabs_le_iff in *. lra. }
  assert (Bs : Rabs (x44 + x3) <= 1 / 100 * U).
  { clear - Gs M3 M4 HU. rewrite Rabs_le_iff in *. lra. }
  pose proof (mul_err U (x44 + x3) c13 p (Y4 / 4 + Y3) (1 / 3) (12 / 10) (1 / 3) (1 / 100) (1 / 3) ltac:(lra) Hp Gs Hc13
    ltac:(rewrite Rabs_right; lra) Bs) as Gp.
  assert (Gu : Rabs (u - U * ((Y4 / 4 + Y3) / 6 + Y2 / 2)) <= 121 / 100).
  { clear - Gp Hu G2. rewrite Rabs_le_iff in *. lra. }
  set (V := X + ((Y4 / 4 + Y3) / 6 + Y2 / 2)).
  assert (Gv : Rabs (U * X + u - U * V) <= 121 / 100).
  { unfold V. clear - Gu. rewrite Rabs_le_iff in *. lra. }
  assert (BV : Rabs V <= 14 / 100).
  { unfold V. clear - X2 X3 X4 HX. rewrite Rabs_le_iff in *. lra. }
  assert (Bv : Rabs (U * X + u) <= 15 / 100 * U).
  { pose proof (AY V _ BV) as MV. clear - Gv MV HU. rewrite Rabs_le_iff in *. lra. }
  assert (Hq' : Rabs (q * U - (U * X + u) * c0) <= U / 2) by (rewrite (Rmult_comm _ c0); exact Hq).
  pose proof (mul_err U (U * X + u) c0 q V C0 (121 / 100) (1 / 2) (15 / 100) (883 / 1000) ltac:(lra) Hq' Gv Hc0
    ltac:(rewrite Rabs_right; lra) Bv) as Gq.
  assert (EV : U * (C0 * (1 + X + Y2 / 2 + Y3 / 6 + Y4 / 24)) = U * C0 + U * (V * C0)) by (unfold V; field).
  rewrite EV. clear - Gq Hc0. rewrite Rabs_le_iff in *. lra.
Qed.

Lemma interval_err U c0 c13 X x x2 x3 x4 x44 p u q :
  32768 <= U -> Rabs X <= 1 / 8 -> x = U * X ->
  Rabs (x2 * U - x * x) <= U / 2 -> Rabs (x3 * U - x2 * x) <= U / 2 -> Rabs (x4 * U - x2 * x2) <= U / 2 ->
  Rabs (x44 * 4 - x4) <= 4 / 2 -> Rabs (p * U - (x44 + x3) * c13) <= U / 2 -> Rabs (u * 2 - (p + x2)) <= 2 / 2 ->
  Rabs (q * U - c0 * (x + u)) <= U / 2 ->
  Rabs (c13 - U * (1 / 3)) <= 1 / 3 -> Rabs (c0 - U * exp (- (1 / 8))) <= 1 / 2 ->
  Rabs (c0 + q - U * exp (X - 1 / 8)) <= 22 / 10 + U * (22945 / 100000000000) /\
  Rabs (c0 + q - U * exp (X - 1 / 8)) <= 22 / 10 + 289 / 1000000000 * (U * exp (X - 1 / 8)).
Proof.
  intros HU HX Ex H2 H3 H4 H44 Hp Hu Hq Hc13 Hc0. pose proof exp_m8 as HC.
  pose proof (chain_err U c0 c13 (exp (- (1 / 8))) X x x2 x3 x4 x44 p u q HU HX Ex H2 H3 H4 H44 Hp Hu Hq Hc13 Hc0 ltac:(lra)) as G.
  pose proof (exp_poly4 X HX) as T. pose proof (exp_poly4_rel X HX) as T'. replace (X - 1 / 8) with (- (1 / 8) + X) by lra. rewrite exp_plus.
  set (P := poly4 X) in *.
  replace (c0 + q - U * (exp (- (1 / 8)) * exp X)) with ((c0 + q - U * (exp (- (1 / 8)) * P)) + - (U * (exp (- (1 / 8)) * (exp X - P)))) by ring.
  split; (eapply Rle_trans; [apply Rabs_triang|]; apply Rplus_le_compat; [exact G|]; rewrite Rabs_Ropp, !Rabs_mult, (Rabs_right U) by lra).
  - apply Rmult_le_compat_l; [lra|]. rewrite (Rabs_right (exp _)) by lra.
    eapply Rle_trans; [apply Rmult_le_compat; [lra|apply Rabs_pos|apply HC|exact T]|]. lra.
  - rewrite (Rabs_right (exp (- (1 / 8)))) by lra.
    replace (289 / 1000000000 * (U * (exp (- (1 / 8)) * exp X))) with (U * (exp (- (1 / 8)) * (289 / 1000000000 * exp X))) by ring.
    apply Rmult_le_compat_l; [lra|]. apply Rmult_le_compat_l; [lra|exact T'].
Qed.

(* ------------------------------------------------------------------ *)
Definition Uw (w : Z) : R := IZR (2 ^ (w - 1)).
Lemma Uw16 : Uw 16 = 32768. Proof. reflexivity. Qed.
Lemma Uw32 : Uw 32 = 2147483648. Proof. reflexivity. Qed.
Lemma Uw_pos w : w1632 w -> 32768 <= Uw w.
Proof. intros [-> | ->]; [rewrite Uw16|rewrite Uw32]; lra. Qed.
(* units in the last place *)
Definition exp_err (w : Z) : R := if (w =? 16)%Z then 5 else 495.
Lemma exp_err_ge w : 5 <= exp_err w.
Proof. unfold exp_err. destruct (w =? 16)%Z; lra. Qed.

Lemma exp_le_1 v : v <= 0 -> exp v <= 1.
Proof.
  intros H. pose proof exp_0 as E0. destruct (Req_dec v 0) as [->|Hn]; [lra|].
  assert (exp v < exp 0) by (apply exp_increasing; lra). lra.
Qed.

Lemma interval_acc m w a : w1632 w -> (- 2 ^ (w - 3) <= a <= -1)%Z ->
  exists r, exp_on_interval m w a = Some r /\ (0 <= r <= int_max w)%Z /\ Rabs (IZR r - Uw w * exp (IZR a / Uw w)) <= exp_err w /\
    Rabs (IZR r - Uw w * exp (IZR a / Uw w)) <= 22 / 10 + 289 / 1000000000 * (Uw w * exp (IZR a / Uw w)).
Proof.
  intros [-> | ->] Ha.
  - destruct (exp_interval16 m a ltac:(cbn in Ha; lia)) as (r & E & C & B). exists r. split; [exact E|]. split; [cbn; lia|].
    destruct C as [x x2 x3 x4 x44 p u q Ex N2 N3 N4 N44 NP NU NQ Er].
    assert (EX : IZR a = IZR x - 4096) by (rewrite <- minus_IZR; f_equal; lia).
    assert (HX : Rabs (IZR x / 32768) <= 1 / 8).
    { cbn in Ha. assert (-4096 <= IZR x <= 4096) by (split; apply IZR_le; lia). apply Rabs_le_iff. lra. }
    apply nearest_R in N2, N3, N4, N44, NP, NU, NQ. rewrite ?mult_IZR, ?plus_IZR in *.
    pose proof exp_m8 as HC.
    pose proof (interval_err 32768 28918 10923 (IZR x / 32768) (IZR x) (IZR x2) (IZR x3) (IZR x4) (IZR x44) (IZR p) (IZR u) (IZR q)
      ltac:(lra) HX ltac:(field) N2 N3 N4 N44 NP NU NQ ltac:(apply Rabs_le_iff; lra) ltac:(apply Rabs_le_iff; lra)) as (G & G').
    rewrite Uw16. replace (IZR a / 32768) with (IZR x / 32768 - 1 / 8) by (rewrite EX; field).
    unfold exp_err. cbn [Z.eqb Pos.eqb].
    assert (P1 : exp (IZR x / 32768 - 1 / 8) <= 1).
    { apply exp_le_1. apply Rabs_le_iff in HX. lra. }
    pose proof (exp_pos (IZR x / 32768 - 1 / 8)) as P0.
    rewrite <- plus_IZR in G, G'. destruct (Z.le_gt_cases (28918 + q) 32767).
    + replace r with (28918 + q)%Z by lia. split; [|exact G']. rewrite Rabs_le_iff in *. lra.
    + replace r with 32767%Z by lia. assert (32768 <= IZR (28918 + q)) by (apply IZR_le; lia). clear - G G' P0 P1 H0. split; rewrite Rabs_le_iff in *; lra.
  - destruct (exp_interval32 m a ltac:(cbn in Ha; lia)) as (r & E & C & B). exists r. split; [exact E|]. split; [cbn; lia|].
    destruct C as [x x2 x3 x4 x44 p u q Ex N2 N3 N4 N44 NP NU NQ Er].
    assert (EX : IZR a = IZR x - 268435456) by (rewrite <- minus_IZR; f_equal; lia).
    assert (HX : Rabs (IZR x / 2147483648) <= 1 / 8).
    { cbn in Ha. assert (-268435456 <= IZR x <= 268435456) by (split; apply IZR_le; lia). apply Rabs_le_iff. lra. }
    apply nearest_R in N2, N3, N4, N44, NP, NU, NQ. rewrite ?mult_IZR, ?plus_IZR in *.
    pose proof exp_m8 as HC.
    pose proof (interval_err 2147483648 1895147668 715827883 (IZR x / 2147483648) (IZR x) (IZR x2) (IZR x3) (IZR x4) (IZR x44) (IZR p) (IZR u) (IZR q)
      ltac:(lra) HX ltac:(field) N2 N3 N4 N44 NP NU NQ ltac:(apply Rabs_le_iff; lra) ltac:(apply Rabs_le_iff; lra)) as (G & G').
    rewrite Uw32. replace (IZR a / 2147483648) with (IZR x / 2147483648 - 1 / 8) by (rewrite EX; field).
    unfold exp_err. cbn [Z.eqb Pos.eqb]. rewrite Er, plus_IZR. split; [lra|exact G'].
Qed.

(* one barrel shifter stage *)
(* an error bound with an absolute and a relative part *)
Definition close (w r : Z) (x A B : R) : Prop := Rabs (IZR r - Uw w * exp x) <= A + B * (Uw w * exp x).

Lemma stage_acc m w ib n e K r v : w1632 w -> (0 <= ib <= w - 3)%Z -> (-2 <= e <= 4)%Z -> (0 <= n < 2 ^ (ib + 2))%Z ->
  (0 <= K <= 2147418111)%Z ->
  Rabs (IZR (wrapS w (rnd_away K (2 ^ (32 - w)))) - Uw w * exp (- (IZR (2 ^ (e + 2)) / 4))) <= 1 / 2 ->
  exp (- (IZR (2 ^ (e + 2)) / 4)) <= 779 / 1000 ->
  (0 <= r <= int_max w)%Z ->
  exists r', exp_barrel_shifter m w ib (2 ^ (w - 3 - ib) * n) e K r = Some r' /\ (0 <= r' <= int_max w)%Z /\
    forall A B, 46 / 10 <= A -> 0 <= B ->
      close w r (v - IZR (n mod 2 ^ (e + 2)) / 4) A B -> close w r' (v - IZR (n mod 2 ^ (e + 3)) / 4) A B.
Proof.
  intros Hw Hib He Hn HK HC HC1 Hr.
  assert (MB : (n mod 2 ^ (e + 3) = n mod 2 ^ (e + 2) + (if Z.testbit n (e + 2) then 2 ^ (e + 2) else 0))%Z).
  { replace (e + 3)%Z with (Z.succ (e + 2)) by lia. assert (0 < 2 ^ (e + 2))%Z by (apply Z.pow_pos_nonneg; lia).
    rewrite Z.pow_succ_r by lia. rewrite (Z.mul_comm 2), Z.rem_mul_r by lia.
    rewrite <- Z.shiftr_div_pow2 by lia. f_equal. rewrite <- Z.bit0_mod, Z.shiftr_spec by lia. replace (0 + (e + 2))%Z with (e + 2)%Z by lia.
    destruct (Z.testbit n (e + 2)); cbn [Z.b2z]; lia. }
  unfold exp_barrel_shifter. destruct (ib >? e)%Z eqn:Ec.
  2: { exists r. split; [reflexivity|]. split; [exact Hr|]. intros A B HA HB HE. rewrite MB.
    assert (Z.testbit n (e + 2) = false) as ->.
    { destruct (Z.eq_dec n 0) as [->|]; [apply Z.testbit_0_l|]. apply Z.bits_above_log2; [lia|].
      assert (Z.log2 n < ib + 2)%Z by (apply Z.log2_lt_pow2; lia). lia. }
    rewrite Z.add_0_r. exact HE. }
  rewrite rci_eq by (first [exact Hw|apply fits32; lia]). cbn [bind].
  unfold one_shl_int, kFractionalBits.
  assert (Hs : (0 <= w - 1 - ib + e <= 30)%Z) by (destruct Hw; lia).
  replace ((0 <=? w - 1 - ib + e) && (w - 1 - ib + e <=? 31))%Z with true by lia.
  assert (2 ^ (w - 1 - ib + e) <= 2 ^ 30)%Z by (apply Z.pow_le_mono_r; lia).
  assert (P0 : (0 < 2 ^ (w - 1 - ib + e))%Z) by (apply Z.pow_pos_nonneg; lia).
  change (2 ^ 30)%Z with 1073741824%Z in *.
  rewrite norm32 by lia. cbn [bind].
  assert (Hc : (0 <= wrapS w (rnd_away K (2 ^ (32 - w))) <= int_max w)%Z).
  { assert (B : (0 <= rnd_away K (2 ^ (32 - w)) <= int_max w)%Z).
    { rewrite rnd_away_nonneg by (destruct Hw; subst w; cbn; lia). unfold rnd_up, int_max.
      destruct Hw; subst w; [change (2 ^ (32 - 16))%Z with 65536%Z|change (2 ^ (32 - 32))%Z with 1%Z]; pows; lia. }
    rewrite wrapS_small; [lia|destruct Hw; lia|]. unfold int_min in *. destruct Hw; subst w; unfold int_max in *; pows; lia. }
  set (c := wrapS w (rnd_away K (2 ^ (32 - w)))) in *.
  pose proof (fmul_nonneg w r c Hw Hr Hc) as BF.
  assert (NF : nearest (FMul w r c) (r * c) (2 ^ (w - 1))).
  { assert (Hfa : fits w r) by (apply fits_int; unfold int_min in *; destruct Hw; subst w; unfold int_max in *; pows; lia).
    assert (Hfb : fits w c) by (apply fits_int; unfold int_min in *; destruct Hw; subst w; unfold int_max in *; pows; lia).
    destruct (srdhm_spec w r c Hw Hfa Hfb) as (H1 & _); [|exact H1]. destruct Hw; subst w; pows; lia. }
  (* the bit *)
  assert (EB : (BitAnd (2 ^ (w - 3 - ib) * n) (wrapS w (2 ^ (w - 1 - ib + e))) =? 0)%Z = negb (Z.testbit n (e + 2))).
  { assert (PW : (wrapS w (2 ^ (w - 1 - ib + e)) = 2 ^ (w - 1 - ib + e))%Z).
    { apply wrapS_small; [destruct Hw; lia|]. unfold int_min, int_max. split; [pose proof (Z.pow_nonneg 2 (w - 1)); lia|].
      assert (2 ^ (w - 1 - ib + e) < 2 ^ (w - 1))%Z by (apply Z.pow_lt_mono_r; lia). lia. }
    rewrite PW. unfold BitAnd.
    assert (L : Z.land (2 ^ (w - 3 - ib) * n) (2 ^ (w - 1 - ib + e)) = (if Z.testbit n (e + 2) then 2 ^ (w - 1 - ib + e) else 0)%Z).
    { apply Z.bits_inj'. intros i Hi. rewrite Z.land_spec, Z.pow2_bits_eqb by lia.
      destruct (Z.eqb_spec (w - 1 - ib + e) i) as [<-|Ne].
      - rewrite Z.mul_comm, Z.mul_pow2_bits by lia. replace (w - 1 - ib + e - (w - 3 - ib))%Z with (e + 2)%Z by lia. rewrite andb_true_r.
        destruct (Z.testbit n (e + 2)); [rewrite Z.pow2_bits_true by lia; reflexivity|rewrite Z.testbit_0_l; reflexivity].
      - rewrite andb_false_r. destruct (Z.testbit n (e + 2)); [rewrite Z.pow2_bits_eqb by lia; symmetry; apply Z.eqb_neq; exact Ne|rewrite Z.testbit_0_l; reflexivity]. }
    rewrite L. destruct (Z.testbit n (e + 2)); cbn [negb]; lia. }
  rewrite mask_nz_spec, EB, MB. destruct (Z.testbit n (e + 2)); cbn [negb].
  2: { rewrite sel_false. exists r. split; [reflexivity|]. split; [exact Hr|]. intros A B HA HB HE. rewrite Z.add_0_r. exact HE. }
  rewrite sel_true. eexists. split; [reflexivity|]. split; [lia|]. intros A B HA HB HE. unfold close in *.
  apply nearest_R in NF. rewrite mult_IZR in NF. fold (Uw w) in NF. rewrite plus_IZR.
  replace (v - (IZR (n mod 2 ^ (e + 2)) + IZR (2 ^ (e + 2))) / 4) with ((v - IZR (n mod 2 ^ (e + 2)) / 4) + - (IZR (2 ^ (e + 2)) / 4)) by field.
  rewrite exp_plus. pose proof (Uw_pos w Hw) as HU. pose proof (exp_pos (- (IZR (2 ^ (e + 2)) / 4))) as Pe.
  set (x := exp (v - IZR (n mod 2 ^ (e + 2)) / 4)) in *. set (y := exp (- (IZR (2 ^ (e + 2)) / 4))) in *.
  pose proof (mul_err (Uw w) (IZR r) (IZR c) (IZR (FMul w r c)) x y
    (A + B * (Uw w * x)) (1 / 2) 1 y ltac:(lra) NF HE HC ltac:(rewrite Rabs_right; lra)) as G.
  assert (BR : Rabs (IZR r) <= 1 * Uw w).
  { rewrite Rabs_right by (apply Rle_ge; apply IZR_le; lia). rewrite Rmult_1_l. unfold Uw. apply IZR_le. unfold int_max in Hr. lia. }
  specialize (G BR). replace (B * (Uw w * (x * y))) with (y * (B * (Uw w * x))) by ring.
  assert (y * A <= 779 / 1000 * A) by (apply Rmult_le_compat_r; lra). rewrite Rmult_plus_distr_l in G. lra.
Qed.

Ltac const_tac H := cbn [Z.add Z.pow Z.pow_pos Pos.iter Pos.add Z.mul Pos.mul Z.opp Z.pos_sub Pos.pred_double Z.succ_double Pos.succ Z.double];
  match goal with |- Rabs (IZR ?c - Uw ?w * exp ?v) <= _ =>
    let c' := eval vm_compute in c in change c with c';
    match type of H with _ <= exp ?v' <= _ => replace v with v' by lra end end;
  pose proof H; try rewrite Uw16; try rewrite Uw32; apply Rabs_le_iff; lra.

Definition stage_ok (w e K : Z) : Prop :=
  Rabs (IZR (wrapS w (rnd_away K (2 ^ (32 - w)))) - Uw w * exp (- (IZR (2 ^ (e + 2)) / 4))) <= 1 / 2.
Lemma st1 w : w1632 w -> stage_ok w (-2) 1672461947. Proof. intros [-> | ->]; unfold stage_ok; const_tac exp_m4. Qed.
Lemma st2 w : w1632 w -> stage_ok w (-1) 1302514674. Proof. intros [-> | ->]; unfold stage_ok; const_tac exp_m2. Qed.
Lemma st3 w : w1632 w -> stage_ok w 0 790015084. Proof. intros [-> | ->]; unfold stage_ok; const_tac exp_m1. Qed.
Lemma st4 w : w1632 w -> stage_ok w 1 290630308. Proof. intros [-> | ->]; unfold stage_ok; const_tac exp_2. Qed.
Lemma st5 w : w1632 w -> stage_ok w 2 39332535. Proof. intros [-> | ->]; unfold stage_ok; const_tac exp_4. Qed.
Lemma st6 w : w1632 w -> stage_ok w 3 720401. Proof. intros [-> | ->]; unfold stage_ok; const_tac exp_8. Qed.
Lemma st7 w : w1632 w -> stage_ok w 4 242. Proof. intros [-> | ->]; unfold stage_ok; const_tac exp_16. Qed.

Lemma exp_le_quarter e : (-2 <= e <= 4)%Z -> exp (- (IZR (2 ^ (e + 2)) / 4)) <= 779 / 1000.
Proof.
  intros He. assert (H : (1 <= 2 ^ (e + 2))%Z) by (pose proof (Z.pow_pos_nonneg 2 (e + 2)); lia).
  apply IZR_le in H. pose proof exp_m4 as H4.
  assert (exp (- (IZR (2 ^ (e + 2)) / 4)) <= exp (- (1 / 4))).
  { destruct (Req_dec (IZR (2 ^ (e + 2))) 1) as [->|Hn]; [right; reflexivity|]. left. apply exp_increasing. lra. }
  lra.
Qed.

Lemma exp_m32 : exp (- (32)) <= 1 / 2147483648.
Proof.
  replace (- (32)) with (- (16) + - (16)) by lra. rewrite exp_plus. pose proof exp_16 as H. pose proof (exp_pos (- (16))).
  assert (exp (- (16)) * exp (- (16)) <= (11253517472 / 100000000000000000) * (11253517472 / 100000000000000000)) by (apply Rmult_le_compat; lra).
  lra.
Qed.

Theorem exp_acc m w ib a : w1632 w -> (0 <= ib <= w - 3)%Z -> fits w a -> (a <= 0)%Z ->
  exists r, exp_on_negative_values m w ib a = Some r /\ (0 <= r <= int_max w)%Z /\
    Rabs (IZR r - Uw w * exp (IZR a / IZR (2 ^ (w - 1 - ib)))) <= exp_err w /\
    close w r (IZR a / IZR (2 ^ (w - 1 - ib))) (46 / 10) (289 / 1000000000).
Proof.
  intros Hw Hib Hfa Ha. pose proof (Uw_pos w Hw) as HU. pose proof (exp_err_ge w) as HEr.
  destruct (Z.eq_dec a 0) as [->|Hz].
  { destruct (exp_negative_in_range m w ib 0 Hw Hib Hfa Ha) as (r & E & B & Er). exists r. split; [exact E|]. split; [exact B|].
    rewrite (Er eq_refl). unfold close, Rdiv. rewrite Rmult_0_l, exp_0. change (One w 0) with (2 ^ (w - 1) - 1)%Z.
    rewrite minus_IZR. fold (Uw w). split; apply Rabs_le_iff; lra. }
  unfold exp_on_negative_values.
  destruct (exp_reduction m w ib a Hw Hib Hfa Ha) as [E1 [E2 [E3 [E4 [B E5]]]]].
  rewrite E1. cbn [bind]. rewrite E2. cbn [bind]. rewrite E3. cbn [bind]. rewrite E4. cbn [bind].
  destruct (interval_acc m w _ Hw B) as (r0 & ER & R1 & A0 & D0). rewrite ER. cbn [bind]. rewrite E5. cbn [bind].
  clear E1 E2 E3 E4 E5 ER.
  set (k := (w - 3 - ib)%Z) in *. assert (Hk : (0 <= k)%Z) by (unfold k; lia).
  assert (K0 : (0 < 2 ^ k)%Z) by (apply Z.pow_pos_nonneg; lia).
  set (am := (a mod 2 ^ k - 2 ^ k)%Z) in *. set (n := (- (a / 2 ^ k) - 1)%Z).
  assert (En : (am - a = 2 ^ k * n)%Z).
  { unfold am, n. pose proof (Z.div_mod a (2 ^ k) ltac:(lia)) as D. lia. }
  assert (EF : (2 ^ (w - 1 - ib) = 4 * 2 ^ k)%Z).
  { replace (w - 1 - ib)%Z with (2 + k)%Z by (unfold k; lia). rewrite Z.pow_add_r by lia. reflexivity. }
  assert (EU : (2 ^ (w - 1) = 4 * 2 ^ k * 2 ^ ib)%Z).
  { rewrite <- EF, <- Z.pow_add_r by lia. f_equal. lia. }
  assert (I0 : (0 < 2 ^ ib)%Z) by (apply Z.pow_pos_nonneg; lia).
  assert (Hn : (0 <= n < 2 ^ (ib + 2))%Z).
  { unfold fits in Hfa. rewrite Z.pow_add_r by lia. change (2 ^ 2)%Z with 4%Z. unfold n. split.
    - assert (a / 2 ^ k < 0)%Z by (apply Z.div_lt_upper_bound; lia). lia.
    - assert (- (4 * 2 ^ ib) <= a / 2 ^ k)%Z by (apply Z.div_le_lower_bound; nia). lia. }
  rewrite En.
  set (v := IZR am / (4 * IZR (2 ^ k))).
  assert (KR : 0 < IZR (2 ^ k)) by (apply IZR_lt; lia). assert (IR : 0 < IZR (2 ^ ib)) by (apply IZR_lt; lia).
  assert (EV0 : v - IZR (n mod 2 ^ (-2 + 2)) / 4 = IZR (am * 2 ^ ib) / Uw w).
  { change (2 ^ (-2 + 2))%Z with 1%Z. rewrite Z.mod_1_r.
    unfold v, Uw. rewrite EU, !mult_IZR. field. split; apply Rgt_not_eq; assumption. }
  assert (A0' : close w r0 (v - IZR (n mod 2 ^ (-2 + 2)) / 4) (exp_err w) 0) by (rewrite EV0; unfold close; lra).
  assert (D0' : close w r0 (v - IZR (n mod 2 ^ (-2 + 2)) / 4) (46 / 10) (289 / 1000000000)) by (rewrite EV0; unfold close; lra).
  clear A0 D0 EV0.
  destruct (stage_acc m w ib n (-2) 1672461947 r0 v Hw Hib ltac:(lia) Hn ltac:(lia) (st1 w Hw) (exp_le_quarter (-2) ltac:(lia)) R1) as (r1 & F1 & B1 & G1).
  fold k in F1. rewrite F1. cbn [bind].
  pose proof (G1 (exp_err w) 0 ltac:(lra) ltac:(lra) A0') as A1. pose proof (G1 (46 / 10) (289 / 1000000000) ltac:(lra) ltac:(lra) D0') as D1. clear F1 G1 A0' D0'.
  destruct (stage_acc m w ib n (-1) 1302514674 r1 v Hw Hib ltac:(lia) Hn ltac:(lia) (st2 w Hw) (exp_le_quarter (-1) ltac:(lia)) B1) as (r2 & F2 & B2 & G2).
  fold k in F2. rewrite F2. cbn [bind].
  pose proof (G2 (exp_err w) 0 ltac:(lra) ltac:(lra) A1) as A2. pose proof (G2 (46 / 10) (289 / 1000000000) ltac:(lra) ltac:(lra) D1) as D2. clear F2 G2 A1 D1.
  destruct (stage_acc m w ib n 0 790015084 r2 v Hw Hib ltac:(lia) Hn ltac:(lia) (st3 w Hw) (exp_le_quarter 0 ltac:(lia)) B2) as (r3 & F3 & B3 & G3).
  fold k in F3. rewrite F3. cbn [bind].
  pose proof (G3 (exp_err w) 0 ltac:(lra) ltac:(lra) A2) as A3. pose proof (G3 (46 / 10) (289 / 1000000000) ltac:(lra) ltac:(lra) D2) as D3. clear F3 G3 A2 D2.
  destruct (stage_acc m w ib n 1 290630308 r3 v Hw Hib ltac:(lia) Hn ltac:(lia) (st4 w Hw) (exp_le_quarter 1 ltac:(lia)) B3) as (r4 & F4 & B4 & G4).
  fold k in F4. rewrite F4. cbn [bind].
  pose proof (G4 (exp_err w) 0 ltac:(lra) ltac:(lra) A3) as A4. pose proof (G4 (46 / 10) (289 / 1000000000) ltac:(lra) ltac:(lra) D3) as D4. clear F4 G4 A3 D3.
  destruct (stage_acc m w ib n 2 39332535 r4 v Hw Hib ltac:(lia) Hn ltac:(lia) (st5 w Hw) (exp_le_quarter 2 ltac:(lia)) B4) as (r5 & F5 & B5 & G5).
  fold k in F5. rewrite F5. cbn [bind].
  pose proof (G5 (exp_err w) 0 ltac:(lra) ltac:(lra) A4) as A5. pose proof (G5 (46 / 10) (289 / 1000000000) ltac:(lra) ltac:(lra) D4) as D5. clear F5 G5 A4 D4.
  destruct (stage_acc m w ib n 3 720401 r5 v Hw Hib ltac:(lia) Hn ltac:(lia) (st6 w Hw) (exp_le_quarter 3 ltac:(lia)) B5) as (r6 & F6 & B6 & G6).
  fold k in F6. rewrite F6. cbn [bind].
  pose proof (G6 (exp_err w) 0 ltac:(lra) ltac:(lra) A5) as A6. pose proof (G6 (46 / 10) (289 / 1000000000) ltac:(lra) ltac:(lra) D5) as D6. clear F6 G6 A5 D5.
  destruct (stage_acc m w ib n 4 242 r6 v Hw Hib ltac:(lia) Hn ltac:(lia) (st7 w Hw) (exp_le_quarter 4 ltac:(lia)) B6) as (r7 & F7 & B7 & G7).
  fold k in F7. rewrite F7. cbn [bind].
  pose proof (G7 (exp_err w) 0 ltac:(lra) ltac:(lra) A6) as A7. pose proof (G7 (46 / 10) (289 / 1000000000) ltac:(lra) ltac:(lra) D6) as D7. clear F7 G7 A6 D6.
  change (2 ^ (4 + 3))%Z with 128%Z in A7, D7.
  assert (EV : IZR a / IZR (2 ^ (w - 1 - ib)) = v - IZR n / 4).
  { unfold v. rewrite EF, mult_IZR. replace a with (am - 2 ^ k * n)%Z by lia. rewrite minus_IZR, mult_IZR. field.
    apply Rgt_not_eq; assumption. }
  assert (OK : (n < 128)%Z -> Rabs (IZR r7 - Uw w * exp (IZR a / IZR (2 ^ (w - 1 - ib)))) <= exp_err w /\
    close w r7 (IZR a / IZR (2 ^ (w - 1 - ib))) (46 / 10) (289 / 1000000000)).
  { intros H. rewrite EV. rewrite Z.mod_small in A7, D7 by lia. split; [unfold close in A7; lra|exact D7]. }
  rewrite MaskIfZero_eq. replace (a =? 0)%Z with false by lia. cbn iota.
  destruct (ib >? 5)%Z eqn:E5.
  2: { cbn [bind]. rewrite sel_false. exists r7. split; [reflexivity|]. split; [exact B7|]. apply OK.
    assert (2 ^ (ib + 2) <= 2 ^ 7)%Z by (apply Z.pow_le_mono_r; lia). change (2 ^ 7)%Z with 128%Z in *. lia. }
  unfold one_shl_int. replace ((0 <=? 36 - ib) && (36 - ib <=? 31))%Z with true by (destruct Hw; lia).
  assert (2 ^ (36 - ib) <= 2 ^ 30)%Z by (apply Z.pow_le_mono_r; lia).
  assert (0 < 2 ^ (36 - ib))%Z by (apply Z.pow_pos_nonneg; destruct Hw; lia).
  change (2 ^ 30)%Z with 1073741824%Z in *.
  rewrite norm32 by lia. cbn [bind]. rewrite rci_eq by (first [exact Hw|apply fits32; lia]). cbn [bind].
  assert (EC : wrapS w (rnd_away (- 2 ^ (36 - ib)) (2 ^ (32 - w))) = (- (128 * 2 ^ k))%Z).
  { assert (P : (2 ^ (36 - ib) = 128 * 2 ^ k * 2 ^ (32 - w))%Z).
    { rewrite <- Z.mul_assoc, <- Z.pow_add_r by (destruct Hw; lia). change 128%Z with (2 ^ 7)%Z. rewrite <- Z.pow_add_r by (destruct Hw; lia).
      f_equal. unfold k. lia. }
    assert (D0 : (0 < 2 ^ (32 - w))%Z) by (apply Z.pow_pos_nonneg; destruct Hw; lia).
    assert (R : rnd_away (- 2 ^ (36 - ib)) (2 ^ (32 - w)) = (- (128 * 2 ^ k))%Z).
    { rewrite rnd_away_neg by lia. rewrite P.
      replace (2 * - (128 * 2 ^ k * 2 ^ (32 - w)) + 2 ^ (32 - w) - 1)%Z with (2 ^ (32 - w) - 1 + (- (128 * 2 ^ k)) * (2 * 2 ^ (32 - w)))%Z by lia.
      rewrite Z.div_add by lia. rewrite Z.div_small by lia. lia. }
    rewrite R. apply wrapS_small; [destruct Hw; lia|]. unfold int_min, int_max. rewrite EU.
    assert (2 ^ 6 <= 2 ^ ib)%Z by (apply Z.pow_le_mono_r; lia). change (2 ^ 6)%Z with 64%Z in *. clear - K0 H1. split; nia. }
  rewrite EC, MaskIfLessThan_eq, sel_mask, sel_false.
  destruct (Z.ltb_spec a (- (128 * 2 ^ k))) as [Hlt|Hge].
  - exists 0%Z. split; [reflexivity|]. split; [unfold int_max; destruct Hw; subst w; pows; lia|].
    assert (exp (IZR a / IZR (2 ^ (w - 1 - ib))) <= exp (- (32))).
    { left. apply exp_increasing. rewrite EF, mult_IZR. apply IZR_lt in Hlt. rewrite opp_IZR, mult_IZR in Hlt.
      apply Rmult_lt_reg_r with (4 * IZR (2 ^ k)); [lra|]. unfold Rdiv. rewrite Rmult_assoc, Rinv_l by lra. lra. }
    pose proof exp_m32. pose proof (exp_pos (IZR a / IZR (2 ^ (w - 1 - ib)))).
    assert (Uw w <= 2147483648) by (destruct Hw as [-> | ->]; [rewrite Uw16|rewrite Uw32]; lra).
    assert (Uw w * exp (IZR a / IZR (2 ^ (w - 1 - ib))) <= 2147483648 * (1 / 2147483648)) by (apply Rmult_le_compat; lra).
    assert (0 <= Uw w * exp (IZR a / IZR (2 ^ (w - 1 - ib)))) by (apply Rmult_le_pos; lra).
    unfold close. split; apply Rabs_le_iff; lra.
  - exists r7. split; [reflexivity|]. split; [exact B7|]. apply OK. unfold n.
    assert (- 128 <= a / 2 ^ k)%Z by (apply Z.div_le_lower_bound; lia). lia.
Qed.

(* ------------------------------------------------------------------ *)
(* e is close to U ep, with absolute error d, and with error A + k U ep *)
Lemma recip_close U e ep t c d A k : 0 < U -> 0 <= e -> 0 <= ep -> 0 <= A -> 0 <= k ->
  Rabs (e - U * ep) <= d -> Rabs (e - U * ep) <= A + k * (U * ep) -> d * d <= U / 100 ->
  Rabs (t * (U + e) - U * U) <= c * (U + e) -> Rabs (t - U / (1 + ep)) <= c + A + k * U / 4 + 1 / 100.
Proof.
  intros HU He Hp HA Hk Hd Hr Hdd Ht.
  assert (Y : 0 < / (U + e)) by (apply Rinv_0_lt_compat; lra).
  assert (Zz : 0 < / (1 + ep)) by (apply Rinv_0_lt_compat; lra).
  set (z := / (1 + ep)) in *. assert (Ez : (1 + ep) * z = 1) by (unfold z; field; lra).
  assert (W2 : z <= 1) by nra.
  set (f := U * ep - e). rewrite Rabs_minus_sym in Hd, Hr. fold f in Hd, Hr.
  (* U / (U + e) = z + f z / (U + e) *)
  replace (t - U / (1 + ep)) with ((t * (U + e) - U * U) * / (U + e) + (f * (z * z) + f * f * (z * z) * / (U + e)))
    by (unfold f, z; field; lra).
  eapply Rle_trans; [apply Rabs_triang|].
  assert (P1 : Rabs ((t * (U + e) - U * U) * / (U + e)) <= c).
  { rewrite Rabs_mult, (Rabs_right (/ (U + e))) by lra.
    replace c with (c * (U + e) * / (U + e)) by (field; lra). apply Rmult_le_compat_r; lra. }
  assert (Z2 : 0 <= z * z <= 1) by nra.
  assert (P2 : Rabs (f * (z * z)) <= A + k * U / 4).
  { rewrite Rabs_mult, (Rabs_right (z * z)) by lra. pose proof (Rabs_pos f).
    assert (Q1 : Rabs f * (z * z) <= (A + k * (U * ep)) * (z * z)) by (apply Rmult_le_compat_r; lra).
    assert (Q2 : ep * (z * z) <= 1 / 4).
    { replace ep with ((1 + ep) - 1) by ring. replace ((1 + ep - 1) * (z * z)) with ((1 + ep) * z * z - z * z) by ring. rewrite Ez.
      assert (0 <= (z - 1 / 2) * (z - 1 / 2)) by apply Rle_0_sqr. lra. }
    assert (Q3 : k * U * (ep * (z * z)) <= k * U * (1 / 4)) by (apply Rmult_le_compat_l; [apply Rmult_le_pos; lra|exact Q2]).
    assert (Q4 : A * (z * z) <= A * 1) by (apply Rmult_le_compat_l; lra).
    replace ((A + k * (U * ep)) * (z * z)) with (A * (z * z) + k * U * (ep * (z * z))) in Q1 by ring. lra. }
  assert (P3 : Rabs (f * f * (z * z) * / (U + e)) <= 1 / 100).
  { assert (F2 : 0 <= f * f <= d * d).
    { split; [apply Rle_0_sqr|]. pose proof (Rabs_pos f).
      replace (f * f) with (Rabs f * Rabs f) by (rewrite <- Rabs_mult; apply Rabs_right; apply Rle_ge, Rle_0_sqr).
      apply Rmult_le_compat; lra. }
    rewrite Rabs_right by (apply Rle_ge; apply Rmult_le_pos; [apply Rmult_le_pos|]; lra).
    assert (S1 : f * f * (z * z) <= U / 100 * 1) by (apply Rmult_le_compat; lra).
    assert (S2 : f * f * (z * z) * / (U + e) <= U / 100 * / (U + e)) by (apply Rmult_le_compat_r; lra).
    assert (S3 : U * / (U + e) <= 1).
    { replace 1 with ((U + e) * / (U + e)) by (field; lra). apply Rmult_le_compat_r; lra. }
    lra. }
  pose proof (Rabs_triang (f * (z * z)) (f * f * (z * z) * / (U + e))). lra.
Qed.

Lemma ratio_close U e ep t c d A k : 0 < U -> 0 <= e -> 0 <= ep -> 0 <= A -> 0 <= k ->
  Rabs (e - U * ep) <= d -> Rabs (e - U * ep) <= A + k * (U * ep) -> d * d <= U / 100 ->
  Rabs (t * (U + e) - U * (U - e)) <= c * (U + e) -> Rabs (t - U * ((1 - ep) / (1 + ep))) <= c + 2 * A + k * U / 2 + 2 / 100.
Proof.
  intros HU He Hp HA Hk Hd Hr Hdd Ht.
  (* t = 2 s - U with s close to U / (1 + ep) *)
  assert (G : Rabs ((t + U) / 2 - U / (1 + ep)) <= c / 2 + A + k * U / 4 + 1 / 100).
  { apply (recip_close U e ep _ _ d A k); try assumption.
    replace ((t + U) / 2 * (U + e) - U * U) with ((t * (U + e) - U * (U - e)) / 2) by field.
    unfold Rdiv at 1. rewrite Rabs_mult, (Rabs_right (/ 2)) by lra. lra. }
  replace (t - U * ((1 - ep) / (1 + ep))) with (2 * ((t + U) / 2 - U / (1 + ep))) by (field; lra).
  rewrite Rabs_mult, (Rabs_right 2) by lra. lra.
Qed.

Lemma err_sq w : w1632 w -> exp_err w * exp_err w <= Uw w / 100.
Proof. intros [-> | ->]; [rewrite Uw16|rewrite Uw32]; unfold exp_err; cbn [Z.eqb Pos.eqb]; lra. Qed.
Definition log_err (w : Z) : R := if (w =? 16)%Z then 20 else 175.
Lemma log_err_ge w : w1632 w -> 14 + 46 / 10 + 289 / 1000000000 * Uw w / 4 + 1 / 100 <= log_err w - 1 /\ 19 < log_err w.
Proof. intros [-> | ->]; [rewrite Uw16|rewrite Uw32]; unfold log_err; cbn [Z.eqb Pos.eqb]; lra. Qed.
Definition tanh_err (w : Z) : R := if (w =? 16)%Z then 38 else 348.
Lemma tanh_err_ge w : w1632 w -> 28 + 2 * (46 / 10) + 289 / 1000000000 * Uw w / 2 + 2 / 100 <= tanh_err w /\ 0 < tanh_err w.
Proof. intros [-> | ->]; [rewrite Uw16|rewrite Uw32]; unfold tanh_err; cbn [Z.eqb Pos.eqb]; lra. Qed.

Definition logistic_R (x : R) : R := 1 / (1 + exp (- x)).

Theorem logistic_acc m w ib a : w1632 w -> (0 <= ib <= w - 3)%Z -> fits w a -> (a <> - 2 ^ (w - 1))%Z ->
  exists r, logistic m w ib a = Some r /\
    Rabs (IZR r - Uw w * logistic_R (IZR a / IZR (2 ^ (w - 1 - ib)))) <= log_err w.
Proof.
  intros Hw Hib Hfa Hna. destruct (logistic_eq m w ib a Hw Hib Hfa Hna) as (t & E & Bt & ET). rewrite ET.
  eexists. split; [reflexivity|]. pose proof (Uw_pos w Hw) as HU. pose proof (log_err_ge w Hw) as HEr.
  pose proof (pow_w w Hw) as Hp. unfold fits in Hfa.
  assert (F0 : 0 < IZR (2 ^ (w - 1 - ib))) by (apply IZR_lt; apply Z.pow_pos_nonneg; lia).
  set (F := IZR (2 ^ (w - 1 - ib))) in *.
  assert (HT : Rabs (IZR t - Uw w / (1 + exp (IZR (- Z.abs a) / F))) <= log_err w - 1).
  { unfold logistic_on_positive_values in E. rewrite Neg_ok in E by (try exact Hw; try unfold fits; lia). cbn [bind] in E.
    destruct (exp_acc m w ib (- Z.abs a) Hw Hib) as (e & Ee & Be & Ae & De); [unfold fits; lia|lia|].
    rewrite Ee in E. cbn [bind] in E. destruct (one_over_ok m w e Hw Be) as (t' & E' & _ & A'). rewrite E' in E. injection E as ->.
    eapply Rle_trans; [|apply HEr].
    apply (recip_close (Uw w) (IZR e) _ _ _ (exp_err w)); [lra|apply IZR_le; lia|left; apply exp_pos|lra|lra|exact Ae|exact De|apply err_sq; exact Hw|].
    apply IZR_le in A'. rewrite <- Rabs_Zabs, minus_IZR, !mult_IZR, !plus_IZR in A'. exact A'. }
  unfold logistic_select, logistic_R. destruct (Z.eqb_spec a 0) as [->|Hz].
  { unfold Rdiv. rewrite Rmult_0_l, Ropp_0, exp_0. assert (EU : Uw w = 2 * IZR (2 ^ (w - 2))).
    { unfold Uw. rewrite <- mult_IZR. f_equal. destruct Hw; subst w; reflexivity. }
    rewrite EU. apply Rabs_le_iff. lra. }
  pose proof (exp_pos (IZR (- Z.abs a) / F)) as P.
  destruct (a >? 0)%Z eqn:Es.
  - replace (- (IZR a / F)) with (IZR (- Z.abs a) / F) by (replace (- Z.abs a)%Z with (- a)%Z by lia; rewrite opp_IZR; field; lra).
    replace (Uw w * (1 / (1 + exp (IZR (- Z.abs a) / F)))) with (Uw w / (1 + exp (IZR (- Z.abs a) / F))) by (field; lra). lra.
  - replace (- (IZR a / F)) with (- (IZR (- Z.abs a) / F)) by (replace (- Z.abs a)%Z with a by lia; reflexivity).
    rewrite exp_Ropp. set (x := exp (IZR (- Z.abs a) / F)) in *.
    rewrite !minus_IZR. fold (Uw w).
    replace (Uw w - 1 - IZR t - Uw w * (1 / (1 + / x))) with (- (IZR t - Uw w / (1 + x)) - 1) by (field; lra).
    apply Rabs_le_iff in HT. apply Rabs_le_iff. lra.
Qed.

Lemma tanh_exp x : tanh x = (1 - exp (- (2 * x))) / (1 + exp (- (2 * x))).
Proof.
  unfold tanh, sinh, cosh. pose proof (exp_pos x). pose proof (exp_pos (- x)).
  replace (- (2 * x)) with (- x + - x) by lra. rewrite exp_plus.
  assert (exp x * exp (- x) = 1) by (rewrite <- exp_plus, Rplus_opp_r; apply exp_0).
  rewrite exp_Ropp. field. split.
  - nra.
  - nra.
Qed.

Theorem tanh_acc m w ib a : w1632 w -> (0 <= ib <= w - 4)%Z -> fits w a -> (a <> - 2 ^ (w - 1))%Z ->
  exists r, ftanh m w ib a = Some r /\
    Rabs (IZR r - Uw w * tanh (IZR a / IZR (2 ^ (w - 1 - ib)))) <= tanh_err w.
Proof.
  intros Hw Hib Hfa Hna. destruct (tanh_eq m w ib a Hw Hib Hfa Hna) as (t & E & Bt & ET). rewrite ET.
  eexists. split; [reflexivity|]. pose proof (Uw_pos w Hw) as HU. pose proof (tanh_err_ge w Hw) as HEr.
  pose proof (pow_w w Hw) as Hp. unfold fits in Hfa.
  assert (F0 : 0 < IZR (2 ^ (w - 1 - ib))) by (apply IZR_lt; apply Z.pow_pos_nonneg; lia).
  set (F := IZR (2 ^ (w - 1 - ib))) in *.
  assert (HT : Rabs (IZR t - Uw w * tanh (IZR (Z.abs a) / F)) <= tanh_err w).
  { unfold neg_tanh_on_negative_values, ExactMulByPot in E.
    destruct (exp_acc m w (ib + 1) (- Z.abs a) Hw ltac:(lia)) as (e & Ee & Be & Ae & De); [unfold fits; lia|lia|].
    rewrite Ee in E. cbn [bind] in E. destruct (one_minus_over_ok m w e Hw Be) as (t' & E' & _ & A'). rewrite E' in E. injection E as ->.
    rewrite tanh_exp. eapply Rle_trans; [|apply HEr].
    replace (- (2 * (IZR (Z.abs a) / F))) with (IZR (- Z.abs a) / IZR (2 ^ (w - 1 - (ib + 1)))).
    2: { assert (F = 2 * IZR (2 ^ (w - 1 - (ib + 1)))) as ->.
      { unfold F. rewrite <- mult_IZR. f_equal. replace (w - 1 - ib)%Z with (1 + (w - 1 - (ib + 1)))%Z by lia.
        rewrite Z.pow_add_r by lia. reflexivity. }
      rewrite opp_IZR. field. apply Rgt_not_eq. apply IZR_lt. apply Z.pow_pos_nonneg; lia. }
    apply (ratio_close (Uw w) (IZR e) _ _ _ (exp_err w)); [lra|apply IZR_le; lia|left; apply exp_pos|lra|lra|exact Ae|exact De|apply err_sq; exact Hw|].
    apply IZR_le in A'. rewrite <- Rabs_Zabs, minus_IZR, !mult_IZR, !plus_IZR, !minus_IZR in A'. exact A'. }
  unfold sgn_apply. destruct (Z.eqb_spec a 0) as [->|Hz].
  { unfold Rdiv. rewrite Rmult_0_l, tanh_exp, Rmult_0_r, Ropp_0, exp_0.
    replace (0 - Uw w * ((1 - 1) / (1 + 1))) with 0 by field. rewrite Rabs_R0. lra. }
  destruct (Z.ltb_spec a 0).
  - replace (IZR a / F) with (- (IZR (Z.abs a) / F)) by (replace a with (- Z.abs a)%Z at 2 by lia; rewrite opp_IZR; field; lra).
    assert (TO : forall x, tanh (- x) = - tanh x).
    { intros x. unfold tanh, sinh, cosh. rewrite Ropp_involutive. pose proof (exp_pos x). pose proof (exp_pos (- x)). field. lra. }
    rewrite TO, opp_IZR. replace (- IZR t - Uw w * - tanh (IZR (Z.abs a) / F)) with (- (IZR t - Uw w * tanh (IZR (Z.abs a) / F))) by field.
    rewrite Rabs_Ropp. exact HT.
  - replace a with (Z.abs a) at 1 by lia. exact HT.
Qed.
