(* QuantProofs7.v: the error of the whole quantization example. *)
From Coq Require Import SpecFloat QArith Qabs Qpower Qminmax Lqa.
From Verif Require Import Base BaseLemmas CommonModel PackModel PackProofs4 GemmSpec FixedPointModel FixedPointSpec ComputeModel KernelSpec
  OutputModel OutputSpec OutputSimdSpec OutputProofs2 GemmModel GemmContract GemmProofs GemmProofs3 GemmProofs4 GemmProofs5
  EightBitModel QuantModel FloatSpec FloatProofs FloatProofs2 FloatProofs3 QuantSpec QuantProofs QuantProofs2 QuantProofs3 QuantProofs4 QuantProofs5 QuantProofs6.
#[local] Open Scope Q_scope.

Lemma between_float f : valid24 f = true -> SFltb (float_of_Z 0) f = true -> SFltb f (float_of_Z 1) = true -> is_float f.
Proof. intros V A B. split; [exact V|]. destruct f as [s|[]| |s m e]; try reflexivity; discriminate. Qed.
(* the multiplier computed in floats *)
Lemma real_multiplier_near q1 q2 q3 fuel mult shift :
  let s1 := valQ (q_scale q1) in let s2 := valQ (q_scale q2) in let s3 := valQ (q_scale q3) in
  is_float (q_scale q1) -> is_float (q_scale q2) -> is_float (q_scale q3) -> 0 < s3 ->
  pow2 (-126) <= s1 * s2 -> s1 * s2 <= pow2 127 -> (148 <= Z.of_nat fuel)%Z ->
  QuantizeMultiplierSmallerThanOne true fuel (real_multiplier q1 q2 q3) = Some (mult, shift) -> (shift <= 31)%Z ->
  (2 ^ 30 <= mult < 2 ^ 31)%Z /\ (0 <= shift)%Z /\
  inject_Z mult * pow2 (- 31 - shift) <= 1 /\
  Qabs (inject_Z mult * pow2 (- 31 - shift) - s1 * s2 / s3) <= (1 # 4194304) * (s1 * s2 / s3).
Proof.
  intros s1 s2 s3 H1 H2 H3 P3 L U Hfuel E Hs. unfold real_multiplier in E. set (p := fmul (q_scale q1) (q_scale q2)) in *.
  set (rm := fdiv p (q_scale q3)) in *.
  pose proof (fmul_ok _ _ H1 H2) as RP. fold p s1 s2 in RP.
  assert (P126 : 0 < pow2 (-126)) by reflexivity. pose proof thr24_big as T24.
  assert (TP : Qabs (s1 * s2) < thr24) by (rewrite Qabs_pos; lra).
  pose proof (rounded_float _ _ RP TP) as Fp. pose proof (float_rel _ _ RP TP) as Ep. rewrite (Qabs_pos (s1 * s2)) in Ep by lra. specialize (Ep L).
  assert (Frm : is_float rm /\ 0 < valQ rm < 1).
  { unfold QuantizeMultiplierSmallerThanOne in E. cbn [negb orb] in E.
    destruct (SFltb (float_of_Z 0) rm) eqn:E0; [|discriminate E]. destruct (SFltb rm (float_of_Z 1)) eqn:E1; [|discriminate E].
    assert (F : is_float rm) by (apply between_float; [apply fdiv_valid; [apply Fp | apply H3] | exact E0 | exact E1]).
    split; [exact F|]. destruct fzero_ok as [Z0 V0]. destruct (of_Z_exact 1 ltac:(lia)) as [Z1 V1].
    apply (float_ltb _ _ Z0 F) in E0. apply (float_ltb _ _ F Z1) in E1. rewrite V0 in E0. rewrite V1 in E1. exact (conj E0 E1). }
  destruct Frm as [Frm Prm]. destruct (quantize_multiplier true fuel rm Frm Prm Hfuel) as (q & s & Eq & Hq & Hs0 & Ev).
  rewrite E in Eq. injection Eq as <- <-. split; [exact Hq|]. split; [lia|]. split; [rewrite <- Ev; lra|]. rewrite <- Ev.
  destruct (fdiv_ok _ _ Fp H3 (Qneq_pos _ P3)) as [sg RR]. fold s3 rm in RR.
  set (x := valQ p / s3) in *. assert (Ex : x * s3 == valQ p) by (unfold x; field; apply Qneq_pos; exact P3).
  apply Qabs_le in Ep.
  assert (Px : 0 <= x). { assert (0 < valQ p) by lra. nra. }
  assert (TX : Qabs x < thr24).
  { destruct (Qlt_le_dec (Qabs x) thr24) as [G | G]; [exact G|]. exfalso. destruct RR as [_ RR]. specialize (RR G).
    destruct Frm as [_ Fi]. rewrite RR in Fi. discriminate Fi. }
  assert (RX : rounded 24 128 x rm) by (exists sg; exact RR).
  assert (GX : pow2 (-126) <= x).
  { destruct (Qlt_le_dec x (pow2 (-126))) as [G | G]; [exfalso | exact G].
    assert (I : in_format 24 128 (pow2 (-126))) by (exists 1%Z, (-126)%Z; split; [lia | reflexivity]).
    pose proof (rounded_le 24 128 _ _ _ RX TX I (Qlt_le_weak _ _ G)) as B. rewrite Ev in B.
    pose proof (pow2_le (-62) (- 31 - shift) ltac:(lia)) as B2. destruct Hq as [Hq _]. apply inj_le in Hq.
    assert (B3 : inject_Z (2 ^ 30) * pow2 (-62) > pow2 (-126)) by reflexivity.
    assert (0 < pow2 (-62)) by reflexivity. pose proof (pow2_pos (- 31 - shift)).
    assert (0 < inject_Z (2 ^ 30)) by reflexivity. nra. }
  pose proof (float_rel _ _ RX TX) as Er. rewrite (Qabs_pos x) in Er by exact Px. specialize (Er GX). apply Qabs_le in Er.
  set (y := s1 * s2 / s3). assert (Ey : y * s3 == s1 * s2) by (unfold y; field; apply Qneq_pos; exact P3).
  assert (Exy : - ((1 # 16777216) * y) <= x - y /\ x - y <= (1 # 16777216) * y).
  { assert (A : - ((1 # 16777216) * y * s3) <= (x - y) * s3) by lra. assert (B : (x - y) * s3 <= (1 # 16777216) * y * s3) by lra. split; nra. }
  assert (Py : 0 <= y) by nra.
  apply Qabs_le. lra.
Qed.

Lemma sum_codes (L R : Z -> Z) z1 z2 s1 s2 n :
  s1 * s2 * sumQ (fun d => inject_Z ((L d + - z1) * (R d + - z2))) n ==
  sumQ (fun d => (s1 * inject_Z (L d - z1)) * (s2 * inject_Z (R d - z2))) n.
Proof.
  rewrite sumQ_scale. apply sumQ_ext. intros d. rewrite inject_Z_mult. unfold Z.sub. ring.
Qed.
Lemma clamp_code F z T b : 3 # 4 <= b -> Qabs (inject_Z (F + z) - T) <= b -> - (3 # 4) <= T -> T <= 255 + (3 # 4) ->
  Qabs (inject_Z (Z.max 0 (Z.min 255 (F + z))) - T) <= b.
Proof.
  intros Hb H T1 T2. apply Qabs_le in H. apply Qabs_le.
  destruct (Z.le_gt_cases (F + z) 255) as [C | C].
  - rewrite Z.min_r by lia. destruct (Z.le_gt_cases 0 (F + z)) as [D | D].
    + rewrite Z.max_r by lia. lra.
    + rewrite Z.max_l by lia. apply inj_lt in D. change (inject_Z 0) with 0 in *. lra.
  - rewrite Z.min_l by lia. rewrite Z.max_r by lia. apply inj_lt in C. change (inject_Z 255) with 255 in *. lra.
Qed.

Theorem example_error m K t hw mnt sc scs lhs rhs result lmin lmax rmin rmax omin omax q1 q2 q3 LF RF L R A B fuel mult shift before :
  let rows := mm_rows result in let cols := mm_cols result in let depth := mm_cols (op_map lhs) in
  let s1 := valQ (q_scale q1) in let s2 := valQ (q_scale q2) in let s3 := valQ (q_scale q3) in
  gemm_config_ok m K t hw mnt result -> takes_uint8 (k_fmt K) ->
  mm_rows (op_map lhs) = rows -> mm_cols (op_map rhs) = cols -> mm_rows (op_map rhs) = depth ->
  (0 < rows)%Z -> (0 < cols)%Z -> (0 < depth)%Z -> (65025 * (depth + kf_reg (k_fmt K)) <= 2 ^ 31 - 1)%Z ->
  holds_matrix (op_mem lhs) (op_map lhs) L -> holds_matrix (op_mem rhs) (op_map rhs) R -> valid_view before result ->
  quantized_from lmin lmax q1 LF L rows depth A -> quantized_from rmin rmax q2 RF R depth cols B ->
  range_ok omin omax -> ChooseQuantizationParams omin omax = Some q3 ->
  pow2 (-126) <= s1 * s2 -> s1 * s2 <= pow2 127 -> (148 <= Z.of_nat fuel)%Z ->
  QuantizeMultiplierSmallerThanOne true fuel (real_multiplier q1 q2 q3) = Some (mult, shift) -> (shift <= 31)%Z ->
  exists phases,
    GemmWithOutputPipeline m K t hw mnt sc scs lhs rhs result (- q_zero_point q1) (- q_zero_point q2)
      [SByFixedPoint mult shift (q_zero_point q3); SSatU8] = Some phases /\
    (exists trace, execution phases trace) /\
    forall trace, execution phases trace -> exists after out, perform trace before = Some after /\ stored before after result out /\
      forall r c, (0 <= r < rows)%Z -> (0 <= c < cols)%Z ->
        let exact := real_product LF RF depth r c in
        range_lo omin <= exact -> exact <= range_hi omax ->
        is_float (dequantize_one q3 (out r c)) /\
        Qabs (valQ (dequantize_one q3 (out r c)) - exact) <=
          ((3 # 4) + (1 # 8192)) * s3 + (1 + (1 # 4194304)) * product_bound depth A B q1 q2.
Proof.
  intros rows cols depth s1 s2 s3 Cfg [U1 U2] Hr1 Hc1 Hd1 Pr Pc Pd Hsafe HL HR V (Rl & Cl & Ql) (Rr & Cr & Qr) Ro Co B1 B2 Hfuel Em Hs.
  destruct (chosen _ _ _ Rl Cl) as (F1 & S1 & Z1 & _). destruct (chosen _ _ _ Rr Cr) as (F2 & S2 & Z2 & _).
  destruct (chosen _ _ _ Ro Co) as (F3 & S3 & Z3 & RR3 & RR4 & Zn3). cbv zeta in *. fold s1 in S1. fold s2 in S2. fold s3 in S3, RR3, RR4, Zn3.
  assert (P126 : 0 < pow2 (-126)) by reflexivity. assert (P1 : 0 < s1) by lra. assert (P2 : 0 < s2) by lra. assert (P3 : 0 < s3) by lra.
  destruct (real_multiplier_near q1 q2 q3 fuel mult shift F1 F2 F3 P3 B1 B2 Hfuel Em Hs) as (Hm & Hs0 & M1 & Mn). fold s1 s2 s3 in Mn.
  assert (Hk : (0 < kf_reg (k_fmt K))%Z) by (destruct Cfg as ((_ & _ & _ & ? & _) & _); assumption).
  set (z1 := q_zero_point q1) in *. set (z2 := q_zero_point q2) in *. set (z3 := q_zero_point q3) in *.
  set (P := fun r c => offset_product L R (fun _ => (- z1)%Z) (fun _ => (- z2)%Z) depth r c).
  set (out := fun r c => Z.max 0 (Z.min 255 (scaled mult 0 shift 0 (P r c) + z3))).
  assert (Hsafe' : int32_safe (in_min (kf_lhs (k_fmt K))) (kf_reg (k_fmt K)) depth rows cols (fun _ => (- z1)%Z) (fun _ => (- z2)%Z)).
  { rewrite (in_min_uint8 _ U1). exists 255%Z, 255%Z. repeat split; try lia. }
  assert (HP : forall r c, (0 <= r < rows)%Z -> (0 <= c < cols)%Z -> (Z.abs (P r c) <= 65025 * depth)%Z).
  { intros r c Hr Hc. unfold P, offset_product. apply sumZ_abs; [lia | lia |]. intros d Hd.
    destruct (HL r d ltac:(lia) Hd) as [_ HLr]. destruct (HR d c ltac:(lia) ltac:(lia)) as [_ HRr].
    rewrite Z.abs_mul. replace 65025%Z with (255 * 255)%Z by reflexivity. apply Z.mul_le_mono_nonneg; lia. }
  assert (HPf : forall r c, (0 <= r < rows)%Z -> (0 <= c < cols)%Z -> fits 32 (P r c)).
  { intros r c Hr Hc. specialize (HP r c Hr Hc). unfold fits. lia. }
  assert (HF : forall r c, (0 <= r < rows)%Z -> (0 <= c < cols)%Z ->
    Qabs (inject_Z (scaled mult 0 shift 0 (P r c)) - inject_Z (P r c) * (inject_Z mult * pow2 (- 31 - shift))) <= 3 # 4).
  { intros r c Hr Hc. apply by_fixedpoint_real; [exact Hm | lia | apply HPf; assumption]. }
  pose proof (pow2_pos (- 31 - shift)) as Ppw.
  assert (PM : 0 < inject_Z mult * pow2 (- 31 - shift)).
  { assert (0 < inject_Z mult) by (apply (proj1 (inj_lt 0 mult)); lia). nra. }
  set (rm := inject_Z mult * pow2 (- 31 - shift)) in *.
  assert (HFf : forall r c, (0 <= r < rows)%Z -> (0 <= c < cols)%Z -> fits 32 (scaled mult 0 shift 0 (P r c) + z3)).
  { intros r c Hr Hc. specialize (HF r c Hr Hc). specialize (HP r c Hr Hc). apply Qabs_le in HF.
    assert (HPq : - inject_Z (65025 * depth) <= inject_Z (P r c) /\ inject_Z (P r c) <= inject_Z (65025 * depth)).
    { rewrite <- inject_Z_opp. split; apply (proj1 (inj_le _ _)); lia. }
    assert (H0 : 0 <= inject_Z (65025 * depth)) by (apply (proj1 (inj_le 0 _)); lia).
    set (Y := inject_Z (65025 * depth)) in *. set (X := inject_Z (P r c)) in *.
    assert (HX : - Y <= X * rm /\ X * rm <= Y) by (split; nra).
    assert (G1 : inject_Z (scaled mult 0 shift 0 (P r c)) < inject_Z (65025 * depth + 1)) by (rewrite inject_Z_plus; fold Y; change (inject_Z 1) with 1; lra).
    assert (G2 : inject_Z (- (65025 * depth) - 1) < inject_Z (scaled mult 0 shift 0 (P r c))).
    { unfold Z.sub. rewrite inject_Z_plus, inject_Z_opp. fold Y. change (inject_Z (- (1))) with (-1#1). lra. }
    apply inj_lt in G1, G2. unfold fits. lia. }
  unfold GemmWithOutputPipeline.
  destruct (gemm_correct m K t hw mnt sc scs lhs rhs result (VDup VCol (- z1) (mm_rows (op_map lhs))) (VDup VRow (- z2) (mm_cols (op_map rhs)))
    [SByFixedPoint mult shift z3; SSatU8] L R (fun _ => (- z1)%Z) (fun _ => (- z2)%Z) out before Cfg) as (phases & E1 & E2 & E3); [| exact V |].
  { constructor; try assumption.
    - symmetry; assumption.
    - tauto.
    - apply holds_uint8_lhs; assumption.
    - apply holds_uint8_rhs; assumption.
    - split; [exact I|]. split; [cbn; lia|]. reflexivity.
    - split; [exact I|]. split; [cbn; lia|]. reflexivity.
    - right. exact Hsafe'.
    - intros r c Hr Hc.
      assert (E : wrapS 32 (P r c) = P r c).
      { apply wrapS_small; [lia|]. specialize (HPf r c Hr Hc). unfold fits, int_min, int_max in *. lia. }
      fold depth. change (offset_product L R (fun _ => (- z1)%Z) (fun _ => (- z2)%Z) depth r c) with (P r c). rewrite E.
      cbn [pipe_at]. rewrite by_fixedpoint_eq; [| apply HPf; assumption | unfold fits; lia | lia | apply HFf; assumption].
      cbn [bind stage_at]. reflexivity.
    - destruct (k_out K) as [T|]; [|exact I]. split; [discriminate|]. unfold i32. split; [intros; lia|]. split; [intros; lia|]. intros r c _ _.
      split; [unfold stage_safe, i32; lia|]. intros y _. split; [exact I|]. intros z _. exact I.
    - rewrite !in_min_uint8 by assumption. reflexivity. }
  exists phases. split; [exact E1|]. split; [exact E2|]. intros trace Ht. destruct (E3 trace Ht) as (after & Ea & Es).
  exists after, out. split; [exact Ea|]. split; [exact Es|]. intros r c Hr Hc. set (ex := real_product LF RF depth r c). intros X1 X2.
  (* the real value of the accumulator *)
  set (e1 := code_bound q1). set (e2 := code_bound q2).
  assert (HV : Qabs (s1 * s2 * inject_Z (P r c) - ex) <= product_bound depth A B q1 q2).
  { unfold P, offset_product. rewrite sumQ_Z by lia. rewrite sum_codes. unfold ex, real_product, product_bound. fold e1 e2.
    eapply Qle_trans; [apply sumQ_diff with (B := A * e2 + B * e1 + e1 * e2) | rewrite Z2Nat.id by lia; apply Qle_refl].
    intros d Hd. rewrite Z2Nat.id in Hd by lia.
    destruct (Ql r d Hr Hd) as (I1 & A1 & C1). destruct (Qr d c Hd Hc) as (I2 & A2 & C2).
    destruct (code_error _ _ _ _ _ Rl Cl I1 C1) as [_ D1]. destruct (code_error _ _ _ _ _ Rr Cr I2 C2) as [_ D2].
    apply prod_error; assumption. }
  set (E := product_bound depth A B q1 q2) in *.
  set (a := inject_Z (P r c)) in *. set (F := scaled mult 0 shift 0 (P r c)) in *.
  specialize (HF r c Hr Hc). fold a F in HF. apply Qabs_le in HF.
  assert (E0 : 0 <= E) by (eapply Qle_trans; [apply Qabs_nonneg | exact HV]).
  apply Qabs_le in HV.
  set (y := s1 * s2 / s3) in *. assert (Ey : y * s3 == s1 * s2) by (unfold y; field; apply Qneq_pos; exact P3).
  assert (Py : 0 < y) by nra.
  set (h := ex / s3). assert (Eh : h * s3 == ex) by (unfold h; field; apply Qneq_pos; exact P3).
  set (eta := E / s3). assert (Eeta : eta * s3 == E) by (unfold eta; field; apply Qneq_pos; exact P3).
  assert (Peta : 0 <= eta) by nra.
  set (u := range_lo omin / s3) in *. assert (Eu : u * s3 == range_lo omin) by (unfold u; field; apply Qneq_pos; exact P3).
  assert (L0 : range_lo omin <= 0) by apply Q.le_min_r. assert (U0 : 0 <= range_hi omax) by apply Q.le_max_r.
  assert (u0 : u <= 0) by nra. assert (u1 : - (255 + (1 # 16384)) <= u) by nra.
  assert (h1 : u <= h) by nra. assert (h2 : h <= u + (255 + (1 # 16384))) by nra.
  assert (G : - eta <= a * y - h /\ a * y - h <= eta).
  { assert (Eg : (a * y - h) * s3 == s1 * s2 * a - ex) by (rewrite <- Ey, <- Eh; ring).
    split; apply (proj1 (Qmult_le_r _ _ s3 P3)); rewrite Eg; lra. }
  assert (W : Qabs (a * rm - a * y) <= (1 # 4194304) * (256 + eta)).
  { setoid_replace (a * rm - a * y) with (a * (rm - y)) by ring. rewrite Qabs_Qmult.
    assert (N1 : Qabs a * Qabs (rm - y) <= Qabs a * ((1 # 4194304) * y)) by (pose proof (Qabs_nonneg a); nra).
    assert (N2 : Qabs a * y <= 256 + eta).
    { assert (N3 : Qabs a * y == Qabs (a * y)) by (rewrite Qabs_Qmult, (Qabs_pos y) by lra; reflexivity).
      rewrite N3. apply Qabs_le. lra. }
    lra. }
  apply Qabs_le in W. apply Qabs_le in Zn3.
  assert (N : Qabs (inject_Z (F + z3) - (inject_Z z3 + h)) <= (3 # 4) + (1 # 16384) + (1 + (1 # 4194304)) * eta).
  { rewrite inject_Z_plus. apply Qabs_le. lra. }
  apply clamp_code in N; [| lra | lra | lra]. rename N into N'.
  assert (Ho : (0 <= out r c <= 255)%Z) by (unfold out; lia).
  change (Z.max 0 (Z.min 255 (F + z3))) with (out r c) in N'. set (n := out r c) in *. apply Qabs_le in N'.
  pose proof (dequantize_rounded q3 n F3 Z3 Ho) as D. pose proof (code_diff q3 n Z3 Ho) as K'.
  fold s3 z3 in D. fold z3 in K'.
  assert (Ek : inject_Z (n - z3) == inject_Z n - inject_Z z3) by (unfold Zminus; rewrite inject_Z_plus, inject_Z_opp; ring).
  set (k := inject_Z (n - z3)) in *.
  assert (AB : Qabs (s3 * k) <= 255 * s3) by (pose proof (mul_bound k 255 s3 P3 (proj1 K') (proj2 K')); apply Qabs_le; lra).
  assert (T : Qabs (s3 * k) < thr24).
  { assert (Bt : (1 + (1 # 4194304)) * pow2 127 < thr24) by reflexivity. destruct Ro as (_ & _ & _ & Ro4). lra. }
  split; [exact (rounded_float _ _ D T)|].
  pose proof (float_abs _ _ D T) as Ed. assert (P150 : pow2 (-150) == (1 # 16777216) * pow2 (-126)) by reflexivity.
  assert (Ed2 : Qabs (valQ (dequantize_one q3 n) - s3 * k) <= (1 # 65536) * s3) by lra.
  apply Qabs_le in Ed2.
  assert (NW : - ((3 # 4) + (1 # 16384) + (1 + (1 # 4194304)) * eta) <= k - h /\ k - h <= (3 # 4) + (1 # 16384) + (1 + (1 # 4194304)) * eta) by lra.
  destruct (mul_bound (k - h) _ s3 P3 (proj1 NW) (proj2 NW)) as [M3 M4].
  apply Qabs_le. lra.
Qed.
