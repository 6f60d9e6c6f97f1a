(* QuantProofs6.v: FindMinMax, the quantized multiplier in the output stage, and
   the error of the whole example. *)
From Coq Require Import SpecFloat QArith Qabs Qpower Qminmax Lqa.
From Verif Require Import Base BaseLemmas CommonModel PackModel GemmSpec FixedPointModel FixedPointSpec ComputeModel KernelSpec
  OutputModel OutputSpec OutputProofs2 GemmModel GemmContract GemmProofs GemmProofs3 GemmProofs4 GemmProofs5
  EightBitModel QuantModel FloatSpec FloatProofs FloatProofs2 FloatProofs3 QuantSpec QuantProofs QuantProofs2 QuantProofs3 QuantProofs4 QuantProofs5.
#[local] Open Scope Q_scope.

Theorem find_min_max first l : is_float first -> (forall v, In v l -> is_float v) ->
  let mm := FindMinMax first l in
  In (fst mm) (first :: l) /\ In (snd mm) (first :: l) /\ forall v, In v (first :: l) -> valQ (fst mm) <= valQ v <= valQ (snd mm).
Proof.
  intros Hf Hl. unfold FindMinMax.
  assert (G : forall l a b, is_float a -> is_float b -> valQ a <= valQ b -> (forall v, In v l -> is_float v) ->
    let r := fold_left (fun mm v => (fmin (fst mm) v, fmax (snd mm) v)) l (a, b) in
    (In (fst r) (a :: l)) /\ (In (snd r) (b :: l)) /\ valQ (fst r) <= valQ a /\ valQ b <= valQ (snd r) /\
    forall v, In v l -> valQ (fst r) <= valQ v <= valQ (snd r)).
  { clear. induction l as [|x l IH]; intros a b Ha Hb Hab Hl; cbn [fold_left].
    - cbn. split; [auto|]. split; [auto|]. split; [lra|]. split; [lra|]. intros v [].
    - assert (Hx : is_float x) by (apply Hl; left; reflexivity).
      destruct (fmin_ok a x Ha Hx) as [A1 A2], (fmax_ok b x Hb Hx) as [B1 B2]. cbn [fst snd].
      pose proof (Q.le_min_l (valQ a) (valQ x)). pose proof (Q.le_min_r (valQ a) (valQ x)).
      pose proof (Q.le_max_l (valQ b) (valQ x)). pose proof (Q.le_max_r (valQ b) (valQ x)).
      specialize (IH (fmin a x) (fmax b x) A1 B1 ltac:(lra) (fun v Hv => Hl v (or_intror Hv))). cbv zeta in *.
      destruct IH as (I1 & I2 & I3 & I4 & I5).
      match type of I1 with context [fold_left ?f l ?i] => set (r := fold_left f l i) in * end.
      repeat match goal with |- context [fold_left ?f l ?i] => change (fold_left f l i) with r end.
      assert (J1 : fmin a x = a \/ fmin a x = x) by (unfold fmin; destruct (SFltb x a); auto).
      assert (J2 : fmax b x = b \/ fmax b x = x) by (unfold fmax; destruct (SFltb b x); auto).
      split; [|split; [|split; [|split]]].
      + destruct I1 as [I1 | I1]; [destruct J1 as [J | J]; rewrite J in I1; cbn [In]; tauto | cbn [In]; tauto].
      + destruct I2 as [I2 | I2]; [destruct J2 as [J | J]; rewrite J in I2; cbn [In]; tauto | cbn [In]; tauto].
      + lra.
      + lra.
      + intros v [<- | Hv]; [lra | apply I5; exact Hv]. }
  destruct (G l first first Hf Hf ltac:(lra) Hl) as (A & B & C & D & E). cbv zeta.
  split; [exact A|]. split; [exact B|]. intros v [<- | Hv]; [exact (conj C D) | apply E; exact Hv].
Qed.

(* the output stage multiplies by the real multiplier *)
Lemma by_fixedpoint_real mult shift x : (2 ^ 30 <= mult < 2 ^ 31)%Z -> (0 <= shift <= 31)%Z -> fits 32 x ->
  Qabs (inject_Z (scaled mult 0 shift 0 x) - inject_Z x * (inject_Z mult * pow2 (- 31 - shift))) <= 3 # 4.
Proof.
  intros Hm Hs Hx.
  assert (Fm : fits 32 mult) by (unfold fits; lia).
  destruct (by_fixedpoint_full Wrap mult shift 0 Hs Fm) as (_ & _ & _).
  pose proof (scaled_error mult 0 shift 0 x Fm ltac:(lia) ltac:(lia)) as H. cbn [Z.pow] in H. rewrite Z.mul_1_r, Z.sub_0_r in H.
  specialize (H Hx ltac:(lia)). set (f := scaled mult 0 shift 0 x) in *.
  assert (P : (0 < 2 ^ shift)%Z) by (apply Z.pow_pos_nonneg; lia).
  assert (H4 : (4 * Z.abs (f * 2 ^ (31 + shift) - x * mult) <= 3 * 2 ^ (31 + shift))%Z).
  { rewrite Z.pow_add_r in * by lia. destruct (shift =? 0)%Z eqn:E0.
    - replace (2 ^ shift)%Z with 1%Z in * by (replace shift with 0%Z by lia; reflexivity). lia.
    - assert (2 <= 2 ^ shift)%Z by (replace shift with (1 + (shift - 1))%Z by lia; rewrite Z.pow_add_r by lia; change (2 ^ 1)%Z with 2%Z;
        assert (0 < 2 ^ (shift - 1))%Z by (apply Z.pow_pos_nonneg; lia); lia). lia. }
  clear H. assert (H5 : (- (3 * 2 ^ (31 + shift)) <= 4 * (f * 2 ^ (31 + shift) - x * mult) <= 3 * 2 ^ (31 + shift))%Z) by lia.
  destruct H5 as [B1 B2]. apply inj_le in B1, B2. injz B1; injz B2.
  rewrite <- (pow2_Z (31 + shift)) in B1, B2 by lia.
  assert (E : pow2 (31 + shift) * pow2 (- 31 - shift) == 1) by (rewrite <- pow2_add; replace (31 + shift + (- 31 - shift))%Z with 0%Z by lia; reflexivity).
  pose proof (pow2_pos (31 + shift)). pose proof (pow2_pos (- 31 - shift)).
  set (p := pow2 (31 + shift)) in *. set (i := pow2 (- 31 - shift)) in *. set (X := inject_Z x) in *. set (M := inject_Z mult) in *. set (F := inject_Z f) in *.
  change (inject_Z 3) with 3 in *. change (inject_Z 4) with 4 in *.
  assert (E2 : F - X * (M * i) == (F * p - X * M) * i) by (setoid_replace ((F * p - X * M) * i) with (F * (p * i) - X * M * i) by ring; rewrite E; ring).
  rewrite E2. set (w := F * p - X * M) in *.
  assert (E3 : (3 # 4) == (3 # 4) * p * i) by (rewrite <- Qmult_assoc, E; ring).
  rewrite E3. apply Qabs_le. apply mul_bound; [assumption | |]; unfold w; lra.
Qed.

(* what chosen parameters are *)
Lemma chosen min max q : range_ok min max -> ChooseQuantizationParams min max = Some q ->
  let s := valQ (q_scale q) in let R := range_hi max - range_lo min in
  is_float (q_scale q) /\ pow2 (-126) <= s /\ (0 <= q_zero_point q <= 255)%Z /\
  R <= (255 + (1 # 16384)) * s /\ 255 * s <= (1 + (1 # 4194304)) * R /\
  Qabs (inject_Z (q_zero_point q) + range_lo min / s) <= (1 # 2) + (1 # 1048576).
Proof.
  intros (Hmin & Hmax & R1 & R2) E. rewrite choose_eq in E. cbv zeta in *. unfold range_lo, range_hi in *.
  destruct (mn_ok min Hmin) as [Hn En], (mx_ok max Hmax) as [Hx Ex].
  set (mn := fmin min (float_of_Z 0)) in *. set (mx := fmax max (float_of_Z 0)) in *.
  assert (Nn : valQ mn <= 0) by (rewrite En; apply Q.le_min_r).
  assert (Px : 0 <= valQ mx) by (rewrite Ex; apply Q.le_max_r).
  rewrite <- En, <- Ex in *.
  fold (scale32 mn mx) in E. fold (izp mn mx) in E.
  destruct (scale_near mn mx Hn Hx Nn Px R1 R2) as (S & S1 & SE).
  destruct (quot_range mn mx Hn Hx Nn Px R1 R2) as (A1 & RR & A2).
  destruct (zero_point_near mn mx Hn Hx Nn Px R1 R2) as (z & Ez & Hz & Zn).
  destruct (to_float_ok _ S) as [TF TE]. rewrite Ez in E. cbn [bind] in E. injection E as <-. cbn [q_scale q_zero_point].
  apply Qabs_le in SE.
  split; [exact TF|]. split; [rewrite TE; exact S1|]. split; [exact Hz|]. split; [rewrite TE; exact RR|].
  split; [rewrite TE; lra | rewrite TE; exact Zn].
Qed.
(* the real value of a code *)
Lemma code_error min max q x n : range_ok min max -> ChooseQuantizationParams min max = Some q -> in_range min max x ->
  quantize_one q x = Some n ->
  (0 <= n <= 255)%Z /\
  Qabs (valQ (q_scale q) * inject_Z (n - q_zero_point q) - valQ x) <= ((1 # 2) + (1 # 8192)) * valQ (q_scale q).
Proof.
  intros HR HC (Hx & X1 & X2) HQ. destruct (chosen min max q HR HC) as (S & S1 & Hz & RR & _ & Zn). cbv zeta in *.
  set (s := valQ (q_scale q)) in *. assert (P2 : 0 < pow2 (-126)) by reflexivity. assert (PS : 0 < s) by lra.
  set (u := range_lo min / s) in *. assert (Eu : u * s == range_lo min) by (unfold u; field; apply Qneq_pos; exact PS).
  set (r := valQ x / s). assert (Er : r * s == valQ x) by (unfold r; field; apply Qneq_pos; exact PS).
  assert (r1 : u <= r) by nra. assert (r2 : r <= u + (255 + (1 # 16384))) by nra.
  assert (L0 : range_lo min <= 0) by apply Q.le_min_r. assert (U0 : 0 <= range_hi max) by apply Q.le_max_r.
  assert (u0 : u <= 0) by nra. assert (u1 : - (255 + (1 # 16384)) <= u) by nra.
  pose proof (quantize_near q x S PS Hz Hx) as N. cbv zeta in N. fold s r in N.
  destruct N as (n' & En & Hn & N); [apply Qabs_le; lra|]. rewrite HQ in En. injection En as <-. split; [exact Hn|].
  apply Qabs_le in Zn.
  assert (Ek : inject_Z (n - q_zero_point q) == inject_Z n - inject_Z (q_zero_point q)) by (unfold Zminus; rewrite inject_Z_plus, inject_Z_opp; ring).
  rewrite Ek. set (z := inject_Z (q_zero_point q)) in *.
  assert (NT : - ((1 # 2) + (1 # 8192)) <= inject_Z n - z - r /\ inject_Z n - z - r <= (1 # 2) + (1 # 8192)).
  { destruct N as [N | [[-> N] | [-> N]]].
    - apply Qabs_le in N. lra.
    - change (inject_Z 255) with 255. lra.
    - change (inject_Z 0) with 0. lra. }
  destruct (mul_bound (inject_Z n - z - r) ((1 # 2) + (1 # 8192)) s PS (proj1 NT) (proj2 NT)) as [B1 B2].
  apply Qabs_le. rewrite <- Er. lra.
Qed.

(* sums *)
Lemma sumQ_Z f n : (0 <= n)%Z -> inject_Z (sumZ f 0 n) == sumQ (fun d => inject_Z (f d)) (Z.to_nat n).
Proof.
  intros H. pattern n. apply natlike_ind; [reflexivity | | exact H].
  intros k Hk IH. rewrite Z2Nat.inj_succ by exact Hk. cbn [sumQ]. unfold Z.succ. rewrite sumZ_last by exact Hk.
  rewrite inject_Z_plus, IH, Z2Nat.id by exact Hk. reflexivity.
Qed.
Lemma sumQ_diff f g n B : (forall d, (0 <= d < Z.of_nat n)%Z -> Qabs (f d - g d) <= B) -> Qabs (sumQ f n - sumQ g n) <= inject_Z (Z.of_nat n) * B.
Proof.
  induction n as [|n IH]; intros H; cbn [sumQ].
  - change (inject_Z (Z.of_nat 0)) with 0. setoid_replace (0 * B) with 0 by ring. discriminate.
  - pose proof (H (Z.of_nat n) ltac:(lia)) as H1. specialize (IH (fun d Hd => H d ltac:(lia))).
    rewrite Nat2Z.inj_succ. unfold Z.succ. rewrite inject_Z_plus. change (inject_Z 1) with 1.
    apply Qabs_le in H1, IH. apply Qabs_le. lra.
Qed.
Lemma sumQ_scale f a n : a * sumQ f n == sumQ (fun d => a * f d) n.
Proof. induction n as [|n IH]; cbn [sumQ]; [ring|]. rewrite <- IH. ring. Qed.
Lemma sumQ_ext f g n : (forall d, f d == g d) -> sumQ f n == sumQ g n.
Proof. intros H. induction n as [|n IH]; cbn [sumQ]; [reflexivity|]. rewrite IH, H. reflexivity. Qed.
(* the error of a product of two approximated numbers *)
Lemma prod_error a b x y A B e1 e2 : Qabs x <= A -> Qabs y <= B -> Qabs (a - x) <= e1 -> Qabs (b - y) <= e2 ->
  Qabs (a * b - x * y) <= A * e2 + B * e1 + e1 * e2.
Proof.
  intros HA HB H1 H2. setoid_replace (a * b - x * y) with (x * (b - y) + (y * (a - x) + (a - x) * (b - y))) by ring.
  eapply Qle_trans; [apply Qabs_triangle|].
  assert (T1 : Qabs (x * (b - y)) <= A * e2).
  { rewrite Qabs_Qmult. pose proof (Qabs_nonneg x). pose proof (Qabs_nonneg (b - y)). nra. }
  assert (T2 : Qabs (y * (a - x) + (a - x) * (b - y)) <= B * e1 + e1 * e2).
  { eapply Qle_trans; [apply Qabs_triangle|]. rewrite !Qabs_Qmult.
    pose proof (Qabs_nonneg y). pose proof (Qabs_nonneg (b - y)). pose proof (Qabs_nonneg (a - x)). nra. }
  lra.
Qed.
