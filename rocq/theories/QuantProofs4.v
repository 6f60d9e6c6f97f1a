(* QuantProofs4.v: quantizing and dequantizing. *)
From Coq Require Import SpecFloat QArith Qabs Qpower Qminmax Lqa.
From Verif Require Import Base BaseLemmas EightBitModel QuantModel FloatSpec FloatProofs FloatProofs2 FloatProofs3 QuantSpec QuantProofs QuantProofs2 QuantProofs3.
#[local] Open Scope Q_scope.

Notation valid24 := (valid_binary 24 128).
(* every operation gives a valid float, from infinities and NaN too *)
Lemma fdiv_valid x y : valid24 x = true -> valid24 y = true -> valid24 (fdiv x y) = true.
Proof.
  intros Vx Vy. destruct x as [sx|sx| |sx mx ex] eqn:Ex, y as [sy|sy| |sy my ey] eqn:Ey; try reflexivity.
  eapply valid_rounds. apply (div_rounds _ _ p24 e128); try assumption; try reflexivity.
  rewrite valQ_finite. pose proof (inj_pos_pos my). pose proof (pow2_pos ey). intros F. unfold sgn in F. destruct sy; nra.
Qed.
Lemma fadd_valid x y : valid24 x = true -> valid24 y = true -> valid24 (fadd x y) = true.
Proof.
  intros Vx Vy. destruct (is_fin x) eqn:Fx, (is_fin y) eqn:Fy.
  - destruct (add_rounds _ _ p24 e128 x y Vx Vy Fx Fy) as [s H]. exact (valid_rounds _ _ _ H).
  - destruct x, y; try discriminate; reflexivity.
  - destruct x, y; try discriminate; reflexivity.
  - destruct x as [sx|sx| |sx mx ex], y as [sy|sy| |sy my ey]; try discriminate; try reflexivity; destruct sx, sy; reflexivity.
Qed.

(* the clamp *)
Definition clamp (v : float) : float := fmax (float_of_Z 0) (fmin (float_of_Z 255) v).
Lemma clamp_fin v : is_float v -> is_float (clamp v) /\ valQ (clamp v) == Qmax 0 (Qmin 255 (valQ v)).
Proof.
  intros H. destruct fzero_ok as [F0 E0], f255_ok as [F1 E1]. destruct (fmin_ok _ _ F1 H) as [A B].
  destruct (fmax_ok _ _ F0 A) as [C D]. split; [exact C|]. unfold clamp. rewrite D, E0, B, E1. reflexivity.
Qed.
Lemma clamp_ok v : valid24 v = true -> is_float (clamp v) /\ 0 <= valQ (clamp v) /\ valQ (clamp v) <= 255.
Proof.
  intros V. destruct (is_fin v) eqn:Fi.
  - destruct (clamp_fin v (conj V Fi)) as [A B]. split; [exact A|]. rewrite B. split; [apply Q.le_max_l|].
    apply Q.max_lub; [discriminate | apply Q.le_min_l].
  - destruct v as [s|s| |s m e]; try discriminate Fi; [destruct s|]; (split; [split; reflexivity | split; discriminate]).
Qed.
Definition transformed (q : qparams) (x : float) : float := fadd (float_of_Z (q_zero_point q)) (fdiv x (q_scale q)).
Lemma quantize_eq q x : quantize_one q x = let* r := round_to_int (clamp (transformed q x)) in to_uint8 r.
Proof. reflexivity. Qed.
Lemma quantize_clamped q x : valid24 (transformed q x) = true ->
  exists n, quantize_one q x = Some n /\ (0 <= n <= 255)%Z /\ rounds_away (valQ (clamp (transformed q x))) n.
Proof.
  intros V. rewrite quantize_eq. destruct (clamp_ok _ V) as ([_ Fi] & A & B).
  destruct (round_to_int_ok _ Fi) as (n & En & Rn). exists n. rewrite En. cbn [bind]. unfold to_uint8.
  pose proof (rounds_away_range _ _ 0 255 Rn A B) as R.
  replace ((0 <=? n)%Z) with true by lia. replace ((n <=? 255)%Z) with true by lia. auto.
Qed.
Lemma zp_float z : (0 <= z <= 255)%Z -> is_float (float_of_Z z) /\ valQ (float_of_Z z) == inject_Z z.
Proof. intros H. apply of_Z_exact. lia. Qed.
(* quantizing is defined for every float, infinities and NaN included *)
Theorem quantize_total q x : valid24 (q_scale q) = true -> (0 <= q_zero_point q <= 255)%Z -> valid24 x = true ->
  exists n, quantize_one q x = Some n /\ (0 <= n <= 255)%Z.
Proof.
  intros VS Hz Vx. destruct (quantize_clamped q x) as (n & A & B & _); [| exists n; auto].
  apply fadd_valid; [apply (zp_float _ Hz) | apply fdiv_valid; assumption].
Qed.

Lemma Qle_div_iff a b c : 0 < c -> a / c <= b <-> a <= b * c.
Proof.
  intros H. assert (E : a == a / c * c) by (field; apply Qneq_pos; exact H). split; intros L.
  - rewrite E. nra.
  - rewrite E in L. nra.
Qed.

(* the value before clamping is close to zero_point + x / scale *)
Lemma transformed_near q x : is_float (q_scale q) -> 0 < valQ (q_scale q) -> (0 <= q_zero_point q <= 255)%Z -> is_float x ->
  Qabs (valQ x / valQ (q_scale q)) <= 256 ->
  is_float (transformed q x) /\
  Qabs (valQ (transformed q x) - (inject_Z (q_zero_point q) + valQ x / valQ (q_scale q))) <= 1 # 16384.
Proof.
  intros HS PS Hz Hx L. destruct (zp_float _ Hz) as [Fz Ez].
  pose proof (fdiv_ok x _ Hx HS (Qneq_pos _ PS)) as D. set (r := valQ x / valQ (q_scale q)) in *.
  assert (T256 : 1024 < thr24) by reflexivity.
  assert (T : Qabs r < thr24) by lra.
  pose proof (rounded_float _ _ D T) as FD. pose proof (float_abs _ _ D T) as ED.
  assert (P150 : pow2 (-150) <= 1 # 16777216) by discriminate.
  set (t := fdiv x (q_scale q)) in *.
  assert (ED2 : Qabs (valQ t - r) <= (1 # 65536) + (1 # 16777216)) by lra. apply Qabs_le in ED2. apply Qabs_le in L.
  pose proof (fadd_ok _ _ Fz FD) as A. rewrite Ez in A || idtac.
  assert (Zr : 0 <= inject_Z (q_zero_point q) <= 255).
  { destruct Hz as [Z1 Z2]. apply inj_le in Z1, Z2. exact (conj Z1 Z2). }
  set (z := inject_Z (q_zero_point q)) in *.
  assert (A' : rounded 24 128 (z + valQ t) (transformed q x)).
  { eapply rounded_wd; [| exact A]. rewrite Ez. reflexivity. }
  assert (B : Qabs (z + valQ t) <= 512) by (apply Qabs_le; lra).
  assert (T2 : Qabs (z + valQ t) < thr24) by lra.
  split; [exact (rounded_float _ _ A' T2)|].
  pose proof (float_abs _ _ A' T2) as EA.
  assert (EA2 : Qabs (valQ (transformed q x) - (z + valQ t)) <= (1 # 32768) + pow2 (-150)) by lra.
  apply Qabs_le in EA2. assert (P2 : pow2 (-150) <= 1 # 16777216) by discriminate. apply Qabs_le.
  assert (ED3 : Qabs (valQ t - r) <= (1 # 65536) + pow2 (-150)).
  { apply Qabs_le in L. lra. } apply Qabs_le in ED3.
  assert (P3 : pow2 (-150) <= 1 # 1073741824) by discriminate. lra.
Qed.
Lemma quantize_near q x : is_float (q_scale q) -> 0 < valQ (q_scale q) -> (0 <= q_zero_point q <= 255)%Z -> is_float x ->
  Qabs (valQ x / valQ (q_scale q)) <= 256 ->
  let T := inject_Z (q_zero_point q) + valQ x / valQ (q_scale q) in
  exists n, quantize_one q x = Some n /\ (0 <= n <= 255)%Z /\
    (Qabs (inject_Z n - T) <= (1 # 2) + (1 # 16384) \/
     n = 255%Z /\ 255 - (1 # 16384) <= T \/ n = 0%Z /\ T <= 1 # 16384).
Proof.
  intros HS PS Hz Hx L T. destruct (transformed_near q x HS PS Hz Hx L) as [Fv Ev]. fold T in Ev.
  set (v := transformed q x) in *. destruct (quantize_clamped q x (float_valid _ Fv)) as (n & A & B & Rn).
  fold v in Rn. destruct (clamp_fin v Fv) as [_ Ec]. apply (rounds_away_wd _ _ _ Ec) in Rn. apply Qabs_le in Ev.
  exists n. split; [exact A|]. split; [exact B|].
  destruct (Qlt_le_dec 255 (valQ v)) as [C | C]; [| destruct (Qlt_le_dec (valQ v) 0) as [C2 | C2]].
  - right; left. split; [| lra].
    assert (E : Qmax 0 (Qmin 255 (valQ v)) == inject_Z 255).
    { rewrite Q.min_l by lra. rewrite Q.max_r by discriminate. reflexivity. }
    exact (rounds_away_exact _ _ _ Rn E).
  - right; right. split; [| lra].
    assert (E : Qmax 0 (Qmin 255 (valQ v)) == inject_Z 0).
    { rewrite Q.min_r by lra. rewrite Q.max_l by lra. reflexivity. }
    exact (rounds_away_exact _ _ _ Rn E).
  - left. assert (E : Qmax 0 (Qmin 255 (valQ v)) == valQ v).
    { rewrite Q.min_r by lra. rewrite Q.max_r by lra. reflexivity. }
    destruct Rn as [Rn _]. rewrite E in Rn. apply Qabs_le in Rn. apply Qabs_le. lra.
Qed.

(* dequantizing *)
Lemma dequantize_rounded q n : is_float (q_scale q) -> (0 <= q_zero_point q <= 255)%Z -> (0 <= n <= 255)%Z ->
  rounded 24 128 (valQ (q_scale q) * inject_Z (n - q_zero_point q)) (dequantize_one q n).
Proof.
  intros HS Hz Hn. destruct (of_Z_exact (n - q_zero_point q) ltac:(lia)) as [F E].
  pose proof (fmul_ok _ _ HS F) as H. eapply rounded_wd; [| exact H]. rewrite E. reflexivity.
Qed.
Lemma code_diff q n : (0 <= q_zero_point q <= 255)%Z -> (0 <= n <= 255)%Z -> -255 <= inject_Z (n - q_zero_point q) <= 255.
Proof.
  intros A B. assert (H : (-255 <= n - q_zero_point q <= 255)%Z) by lia. destruct H as [H1 H2]. apply inj_le in H1, H2.
  exact (conj H1 H2).
Qed.

(* zero *)
Theorem zero_exact q s : is_float (q_scale q) -> 0 < valQ (q_scale q) -> (0 <= q_zero_point q <= 255)%Z ->
  is_float (dequantize_one q (q_zero_point q)) /\ valQ (dequantize_one q (q_zero_point q)) == 0 /\
  quantize_one q (S754_zero s) = Some (q_zero_point q).
Proof.
  intros HS PS Hz. pose proof (dequantize_rounded q _ HS Hz Hz) as D.
  destruct (rounded_exact _ _ p24 _ _ D) as (A & B & C).
  { apply (in_format_wd _ _ 0); [| exact (zero_in_format _ _ p24 e128)].
    replace (q_zero_point q - q_zero_point q)%Z with 0%Z by lia. change (inject_Z 0) with 0. ring. }
  split; [split; assumption|]. split.
  { rewrite C. replace (q_zero_point q - q_zero_point q)%Z with 0%Z by lia. change (inject_Z 0) with 0. ring. }
  assert (F0 : is_float (S754_zero s)) by (split; reflexivity).
  assert (E0 : valQ (S754_zero s) / valQ (q_scale q) == 0) by (cbn [valQ]; unfold Qdiv; ring).
  pose proof (quantize_near q (S754_zero s) HS PS Hz F0) as N. cbv zeta in N.
  destruct N as (n & En & Hn & N); [rewrite E0; discriminate|]. rewrite En. f_equal.
  rewrite E0 in N. destruct N as [N | [[-> N] | [-> N]]].
  - apply Qabs_le in N. destruct N as [N1 N2].
    assert (I1 : inject_Z (n - q_zero_point q) < inject_Z 1) by (unfold Zminus; rewrite inject_Z_plus, inject_Z_opp; change (inject_Z 1) with 1; lra).
    assert (I2 : inject_Z (-1) < inject_Z (n - q_zero_point q)) by (unfold Zminus; rewrite inject_Z_plus, inject_Z_opp; change (inject_Z (-1)) with (-1#1); lra).
    apply inj_lt in I1, I2. lia.
  - assert (I : inject_Z 254 < inject_Z (q_zero_point q)) by (change (inject_Z 254) with 254; lra). apply inj_lt in I. lia.
  - assert (I : inject_Z (q_zero_point q) < inject_Z 1) by (change (inject_Z 1) with 1; lra). apply inj_lt in I. lia.
Qed.

(* every code survives a round trip *)
Theorem codes_round_trip q n : is_float (q_scale q) -> pow2 (-126) <= valQ (q_scale q) -> valQ (q_scale q) <= pow2 119 ->
  (0 <= q_zero_point q <= 255)%Z -> (0 <= n <= 255)%Z ->
  is_float (dequantize_one q n) /\ quantize_one q (dequantize_one q n) = Some n.
Proof.
  intros HS S1 S2 Hz Hn. assert (P126 : 0 < pow2 (-126)) by reflexivity. assert (PS : 0 < valQ (q_scale q)) by lra.
  pose proof (dequantize_rounded q n HS Hz Hn) as D. pose proof (code_diff q n Hz Hn) as K.
  set (S := valQ (q_scale q)) in *. set (k := inject_Z (n - q_zero_point q)) in *.
  assert (T : Qabs (S * k) < thr24).
  { pose proof thr24_big. assert (E : pow2 119 * 256 == pow2 127) by reflexivity. apply Qabs_lt. split; nra. }
  pose proof (rounded_float _ _ D T) as FD. split; [exact FD|].
  assert (Er : Qabs (valQ (dequantize_one q n) - S * k) <= (1 # 16777216) * (255 * S)).
  { destruct (Z.eq_dec n (q_zero_point q)) as [E | E].
    - assert (k0 : k == 0) by (unfold k; rewrite E; replace (q_zero_point q - q_zero_point q)%Z with 0%Z by lia; reflexivity).
      destruct (zero_exact q false HS PS Hz) as (_ & V0 & _). rewrite <- E in V0. rewrite V0, k0.
      apply Qabs_le. lra.
    - assert (K1 : 1 <= Qabs k).
      { unfold k. assert (Q : (1 <= Z.abs (n - q_zero_point q))%Z) by lia. apply inj_le in Q.
        change (Qabs (inject_Z (n - q_zero_point q))) with (inject_Z (Z.abs (n - q_zero_point q))). exact Q. }
      assert (AK : Qabs (S * k) == S * Qabs k) by (rewrite Qabs_Qmult, (Qabs_pos S) by lra; reflexivity).
      assert (KK : Qabs k <= 255) by (apply Qabs_le; lra).
      pose proof (float_rel _ _ D T) as R. rewrite AK in R.
      assert (G : pow2 (-126) <= S * Qabs k) by nra. specialize (R G). nra. }
  set (y := dequantize_one q n) in *. apply Qabs_le in Er.
  assert (Q1 : valQ y / S - k <= 1 # 65536).
  { assert (E : valQ y / S - k == (valQ y - S * k) / S) by (field; apply Qneq_pos; exact PS). rewrite E. apply Qle_div_iff; [exact PS | lra]. }
  assert (Q2 : - (valQ y / S - k) <= 1 # 65536).
  { assert (E : - (valQ y / S - k) == - (valQ y - S * k) / S) by (field; apply Qneq_pos; exact PS). rewrite E. apply Qle_div_iff; [exact PS | lra]. }
  pose proof (quantize_near q y HS PS Hz FD) as N. cbv zeta in N. fold S in N.
  destruct N as (n' & En & Hn' & N); [apply Qabs_le; lra|]. rewrite En. f_equal.
  assert (Kn : k == inject_Z n - inject_Z (q_zero_point q)) by (unfold k, Zminus; rewrite inject_Z_plus, inject_Z_opp; ring).
  destruct N as [N | [[-> N] | [-> N]]].
  - apply Qabs_le in N. destruct N as [N1 N2].
    assert (I1 : inject_Z (n' - n) < inject_Z 1) by (unfold Zminus; rewrite inject_Z_plus, inject_Z_opp; change (inject_Z 1) with 1; lra).
    assert (I2 : inject_Z (-1) < inject_Z (n' - n)) by (unfold Zminus; rewrite inject_Z_plus, inject_Z_opp; change (inject_Z (-1)) with (-1#1); lra).
    apply inj_lt in I1, I2. lia.
  - assert (I : inject_Z 254 < inject_Z n) by (change (inject_Z 254) with 254; lra). apply inj_lt in I. lia.
  - assert (I : inject_Z n < inject_Z 1) by (change (inject_Z 1) with 1; lra). apply inj_lt in I. lia.
Qed.
