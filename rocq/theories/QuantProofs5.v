(* QuantProofs5.v: the error of quantizing with chosen parameters; monotonicity. *)
From Coq Require Import SpecFloat QArith Qabs Qpower Qminmax Lqa.
From Verif Require Import Base BaseLemmas EightBitModel QuantModel FloatSpec FloatProofs FloatProofs2 FloatProofs3 QuantSpec QuantProofs QuantProofs2 QuantProofs3 QuantProofs4.
#[local] Open Scope Q_scope.

Section Range.
Context (mn mx : float) (Hn : is_float mn) (Hx : is_float mx) (Nn : valQ mn <= 0) (Px : 0 <= valQ mx).
Notation R := (valQ mx - valQ mn).
Context (R1 : pow2 (-118) <= R) (R2 : R <= pow2 127).
Notation scale := (scale32 mn mx).
Lemma R_lt : R < thr24. Proof. pose proof thr24_big. lra. Qed.
Lemma diff_near : Qabs (valQ (fsub mx mn) - R) <= (1 # 16777216) * R.
Proof.
  pose proof R_lt as L. pose proof (fsub_ok mx mn Hx Hn) as D. pose proof (abs_R mn mx Nn Px L) as A.
  assert (P : 0 < pow2 (-118)) by reflexivity. assert (Q : pow2 (-126) <= pow2 (-118)) by discriminate.
  pose proof (float_rel _ _ D A) as F. rewrite (Qabs_pos R) in F by lra. apply F. lra.
Qed.
(* the scale is the range divided by 255, up to two roundings *)
Lemma scale_near : is_float scale /\ pow2 (-126) <= valQ scale /\ Qabs (255 * valQ scale - R) <= (1 # 4194304) * R.
Proof.
  pose proof R_lt as L. destruct (scale_ok mn mx Hn Hx Nn Px L) as [S _]. split; [exact S|].
  pose proof diff_near as D. set (d := valQ (fsub mx mn)) in *. apply Qabs_le in D.
  assert (P : 0 < pow2 (-118)) by reflexivity. assert (E : pow2 (-118) == 256 * pow2 (-126)) by reflexivity.
  assert (P2 : 0 < pow2 (-126)) by reflexivity.
  pose proof (scale_rounded mn mx Hn Hx Nn Px L) as RS. pose proof (scale_arg mn mx Hn Hx Nn Px L) as AS. fold d in RS, AS.
  assert (Ex : d / 255 * 255 == d) by field. set (x := d / 255) in *.
  assert (X : pow2 (-126) <= x) by lra.
  split.
  - apply (rounded_ge 24 128 x _ _ RS AS); [exists 1%Z, (-126)%Z; split; [lia | reflexivity] | exact X].
  - pose proof (float_rel _ _ RS AS) as F. rewrite (Qabs_pos x) in F by lra. specialize (F X). apply Qabs_le in F.
    apply Qabs_le. lra.
Qed.
Lemma quot_range : 0 <= - (valQ mn / valQ scale) /\ R <= (255 + (1 # 16384)) * valQ scale /\ - (valQ mn / valQ scale) <= 255 + (1 # 16384).
Proof.
  destruct scale_near as (S & S1 & E). apply Qabs_le in E. assert (P2 : 0 < pow2 (-126)) by reflexivity.
  assert (PS : 0 < valQ scale) by lra.
  assert (RR : R <= (255 + (1 # 16384)) * valQ scale) by lra.
  assert (Em : - (valQ mn / valQ scale) == (- valQ mn) / valQ scale) by (field; apply Qneq_pos; exact PS).
  split; [| split; [exact RR|]].
  - assert (valQ mn / valQ scale <= 0); [| lra]. apply Qle_div_iff; [exact PS | lra].
  - rewrite Em. apply Qle_div_iff; [exact PS | lra].
Qed.
(* the zero point is the integer closest to -min / scale *)
Lemma zero_point_near : exists z, nudge (izp mn mx) = Some z /\ (0 <= z <= 255)%Z /\
  Qabs (inject_Z z + valQ mn / valQ scale) <= (1 # 2) + (1 # 1048576).
Proof.
  destruct scale_near as (S & S1 & E). assert (P2 : 0 < pow2 (-126)) by reflexivity. assert (PS : 0 < valQ scale) by lra.
  destruct quot_range as (A1 & _ & A2).
  destruct (izp_ok mn mx Hn Hx Nn Px R_lt PS) as (D & D0 & Er).
  destruct (nudge_ok _ D D0) as (z & Ez & Hz & Z1 & Z2). exists z. split; [exact Ez|]. split; [exact Hz|].
  set (u := valQ mn / valQ scale) in *. set (i := valQ (izp mn mx)) in *.
  assert (Er2 : Qabs (i + u) <= 1 # 1048576).
  { rewrite (Qabs_neg u) in Er by lra. assert (E53 : pow2 (-53) == 1 # 9007199254740992) by reflexivity. rewrite E53 in Er.
    assert (pow2 (-1075) <= 1 # 1073741824) by discriminate. lra. }
  apply Qabs_le in Er2.
  destruct (Qlt_le_dec 255 i) as [C | C].
  - rewrite (Z2 C). change (inject_Z 255) with 255. apply Qabs_le. lra.
  - destruct (Z1 C) as [Rn _]. apply Qabs_le in Rn. apply Qabs_le. lra.
Qed.
End Range.

Lemma mul_bound a c s : 0 < s -> - c <= a -> a <= c -> - (c * s) <= a * s /\ a * s <= c * s.
Proof. intros. split; nra. Qed.
Theorem quantization_error min max x : is_float min -> is_float max -> is_float x ->
  let M := Qmin (valQ min) 0 in let X := Qmax (valQ max) 0 in
  pow2 (-118) <= X - M -> X - M <= pow2 127 -> M <= valQ x -> valQ x <= X ->
  exists q n, ChooseQuantizationParams min max = Some q /\ quantize_one q x = Some n /\
    is_float (q_scale q) /\ Qabs (255 * valQ (q_scale q) - (X - M)) <= (1 # 4194304) * (X - M) /\
    (0 <= q_zero_point q <= 255)%Z /\ (0 <= n <= 255)%Z /\
    is_float (dequantize_one q n) /\
    Qabs (valQ (dequantize_one q n) - valQ x) <= ((1 # 2) + (1 # 4096)) * valQ (q_scale q).
Proof.
  intros Hmin Hmax Hv M X R1 R2 X1 X2. rewrite choose_eq. cbv zeta.
  destruct (mn_ok min Hmin) as [Hn En], (mx_ok max Hmax) as [Hx Ex]. fold M in En. fold X in Ex.
  set (mn := fmin min (float_of_Z 0)) in *. set (mx := fmax max (float_of_Z 0)) in *.
  assert (Nn : valQ mn <= 0) by (rewrite En; apply Q.le_min_r).
  assert (Px : 0 <= valQ mx) by (rewrite Ex; apply Q.le_max_r).
  assert (ER : X - M == valQ mx - valQ mn) by (rewrite En, Ex; reflexivity). rewrite ER in R1, R2.
  fold (scale32 mn mx). fold (izp mn mx).
  destruct (scale_near mn mx Hn Hx Nn Px R1 R2) as (S & S1 & SE).
  destruct (quot_range mn mx Hn Hx Nn Px R1 R2) as (A1 & RR & A2).
  destruct (zero_point_near mn mx Hn Hx Nn Px R1 R2) as (z & Ez & Hz & Zn).
  destruct (to_float_ok _ S) as [TF TE]. rewrite Ez. cbn [bind].
  set (q := mk_qparams (to_float (to_double (scale32 mn mx))) z).
  assert (P2 : 0 < pow2 (-126)) by reflexivity. assert (PS : 0 < valQ (scale32 mn mx)) by lra.
  assert (Eq : valQ (q_scale q) == valQ (scale32 mn mx)) by exact TE.
  set (s := valQ (scale32 mn mx)) in *.
  assert (PQ : 0 < valQ (q_scale q)) by (rewrite Eq; exact PS).
  set (r := valQ x / s). assert (Er : r * s == valQ x) by (unfold r; field; apply Qneq_pos; exact PS).
  set (u := valQ mn / s) in *. assert (Eu : u * s == valQ mn) by (unfold u; field; apply Qneq_pos; exact PS).
  assert (r1 : u <= r). { rewrite <- En in X1. nra. }
  assert (r2 : r <= u + (255 + (1 # 16384))). { rewrite <- Ex in X2. nra. }
  assert (Eqr : valQ x / valQ (q_scale q) == r) by (unfold r; rewrite Eq; reflexivity).
  pose proof (quantize_near q x TF PQ Hz Hv) as N. cbv zeta in N.
  destruct N as (n & En' & Hn' & N); [rewrite Eqr; apply Qabs_le; lra|].
  rewrite Eqr in N. change (q_zero_point q) with z in N. apply Qabs_le in Zn.
  exists q, n. split; [reflexivity|]. split; [exact En'|]. split; [exact TF|].
  split; [rewrite Eq, ER; exact SE|]. split; [exact Hz|]. split; [exact Hn'|].
  assert (NT : Qabs (inject_Z n - (inject_Z z + r)) <= (1 # 2) + (1 # 8192)).
  { destruct N as [N | [[-> N] | [-> N]]].
    - lra.
    - change (inject_Z 255) with 255. apply Qabs_le. lra.
    - change (inject_Z 0) with 0. apply Qabs_le. lra. }
  pose proof (dequantize_rounded q n TF Hz Hn') as D. pose proof (code_diff q n Hz Hn') as K.
  change (q_zero_point q) with z in *.
  assert (Ek : inject_Z (n - z) == inject_Z n - inject_Z z) by (unfold Zminus; rewrite inject_Z_plus, inject_Z_opp; ring).
  set (k := inject_Z (n - z)) in *.
  assert (D' : rounded 24 128 (s * k) (dequantize_one q n)) by (eapply rounded_wd; [| exact D]; rewrite Eq; reflexivity).
  apply Qabs_le in SE.
  assert (AB : Qabs (s * k) <= 255 * s) by (apply Qabs_le; split; nra).
  assert (T : Qabs (s * k) < thr24).
  { assert (B : (1 + (1 # 4194304)) * pow2 127 < thr24) by reflexivity. lra. }
  split; [exact (rounded_float _ _ D' T)|].
  pose proof (float_abs _ _ D' T) as Ed. assert (P150 : pow2 (-150) == (1 # 16777216) * pow2 (-126)) by reflexivity.
  rewrite Eq. assert (Ed2 : Qabs (valQ (dequantize_one q n) - s * k) <= (1 # 65536) * s) by lra.
  apply Qabs_le in Ed2. apply Qabs_le in NT. rewrite Ek in Ed2. apply Qabs_le. rewrite <- Er.
  assert (NW : - ((1 # 2) + (1 # 8192)) <= inject_Z n - inject_Z z - r <= (1 # 2) + (1 # 8192)) by lra.
  set (w := inject_Z n - inject_Z z) in *.
  destruct (mul_bound (w - r) ((1 # 2) + (1 # 8192)) s PS (proj1 NW) (proj2 NW)) as [B1 B2]. split; lra.
Qed.

(* monotonicity *)
Lemma float_inj f g : is_float f -> is_float g -> valQ f == valQ g -> f = g \/ valQ f == 0.
Proof.
  intros Hf Hg E. assert (C : SFcompare f g = Some Eq).
  { destruct Hf as [A B], Hg as [C D]. rewrite (compare_ok 24 128 p24 f g A C B D). f_equal. apply (proj1 (Qeq_alt _ _)). exact E. }
  destruct f as [sf|sf| |sf mf ef]; try (right; reflexivity).
  destruct g as [sg|sg| |sg mg eg]; try (right; exact E).
  left. cbn [SFcompare] in C. destruct sf, sg; try discriminate C.
  - destruct (Z.compare_spec ef eg); try discriminate C. subst eg. injection C as C.
    unfold Pcompare in C || idtac. apply CompOpp_iff in C. cbn in C. apply Pos.compare_eq in C. subst. reflexivity.
  - destruct (Z.compare_spec ef eg); try discriminate C. subst eg. injection C as C.
    apply Pos.compare_eq in C. subst. reflexivity.
Qed.
Lemma rounded_lt_mono x y f g : x < y -> Qabs x < thr24 -> Qabs y < thr24 -> rounded 24 128 x f -> rounded 24 128 y g -> valQ f <= valQ g.
Proof.
  intros L Tx Ty Hf Hg. destruct (rounded_fin _ _ _ _ Hf Tx) as (_ & _ & If), (rounded_fin _ _ _ _ Hg Ty) as (_ & _ & Ig).
  apply Qnot_lt_le. intros G.
  destruct (Qlt_le_dec (valQ g) x) as [A | A]; [| pose proof (rounded_le 24 128 _ _ _ Hf Tx Ig A); lra].
  destruct (Qlt_le_dec y (valQ f)) as [B | B]; [| pose proof (rounded_ge 24 128 _ _ _ Hg Ty If B); lra].
  pose proof (rounded_near 24 128 _ _ _ Hf Tx Ig) as N1. pose proof (rounded_near 24 128 _ _ _ Hg Ty If) as N2.
  rewrite Qabs_pos in N1 by lra. rewrite Qabs_neg in N1 by lra. rewrite Qabs_neg in N2 by lra. rewrite Qabs_pos in N2 by lra. lra.
Qed.
Lemma rounds_away_mono x y n k : x <= y -> rounds_away x n -> rounds_away y k -> (n <= k)%Z.
Proof.
  intros L [A1 A2] [B1 B2]. apply Z.nlt_ge. intros F.
  assert (F2 : (k + 1 <= n)%Z) by lia. apply inj_le in F2. rewrite inject_Z_plus in F2. change (inject_Z 1) with 1 in F2.
  pose proof A1 as A1'. pose proof B1 as B1'. apply Qabs_le in A1', B1'.
  assert (E1 : inject_Z n - x == 1 # 2) by lra. assert (E2 : inject_Z k - y == - (1 # 2)) by lra.
  assert (E3 : inject_Z n == inject_Z k + 1) by lra.
  assert (X2 : Qabs x <= Qabs (inject_Z n)) by (apply A2; rewrite E1; reflexivity).
  assert (Y2 : Qabs y <= Qabs (inject_Z k)) by (apply B2; rewrite E2; reflexivity).
  assert (Exy : x == y) by lra. clear A1 A2 B1 B2 A1' B1'.
  (* x = n - 1/2 = k + 1/2 and both halves are away from zero *)
  destruct (Qlt_le_dec 0 y) as [C | C].
  - rewrite (Qabs_pos y) in Y2 by lra. destruct (Qlt_le_dec (inject_Z k) 0) as [D | D].
    + assert (D2 : (k < 0)%Z) by (apply (proj2 (inj_lt _ _)); exact D). assert (D3 : (k <= -1)%Z) by lia.
      apply inj_le in D3. change (inject_Z (-1)) with (-1#1) in D3. lra.
    + rewrite Qabs_pos in Y2 by exact D. lra.
  - rewrite (Qabs_neg x) in X2 by lra. destruct (Qlt_le_dec 0 (inject_Z n)) as [D | D].
    + assert (D2 : (0 < n)%Z) by (apply (proj2 (inj_lt _ _)); exact D). assert (D3 : (1 <= n)%Z) by lia.
      apply inj_le in D3. change (inject_Z 1) with 1 in D3. lra.
    + rewrite Qabs_neg in X2 by exact D. lra.
Qed.
Lemma fadd_zero z f : (0 <= z <= 255)%Z -> is_float f -> valQ f == 0 -> valQ (fadd (float_of_Z z) f) == inject_Z z.
Proof.
  intros Hz Hf E. destruct (zp_float z Hz) as [F Ez]. pose proof (fadd_ok _ _ F Hf) as A.
  destruct (rounded_exact _ _ p24 _ _ A) as (_ & _ & C); [| rewrite C, Ez, E; ring].
  apply (in_format_wd _ _ (valQ (float_of_Z z))); [rewrite E; ring | apply float_format; exact F].
Qed.
Theorem quantize_monotone q x y n k : is_float (q_scale q) -> 0 < valQ (q_scale q) -> (0 <= q_zero_point q <= 255)%Z ->
  is_float x -> is_float y -> Qabs (valQ x) <= pow2 127 * valQ (q_scale q) -> Qabs (valQ y) <= pow2 127 * valQ (q_scale q) ->
  valQ x <= valQ y -> quantize_one q x = Some n -> quantize_one q y = Some k -> (n <= k)%Z.
Proof.
  intros HS PS Hz Hx Hy Bx By L En Ek.
  set (S := valQ (q_scale q)) in *.
  assert (Q : forall w, is_float w -> Qabs (valQ w) <= pow2 127 * S ->
    let t := fdiv w (q_scale q) in is_float t /\ rounded 24 128 (valQ w / S) t /\ Qabs (valQ w / S) < thr24 /\
      rounded 24 128 (inject_Z (q_zero_point q) + valQ t) (transformed q w) /\ Qabs (inject_Z (q_zero_point q) + valQ t) < thr24 /\
      is_float (transformed q w)).
  { intros w Hw Bw t. pose proof (fdiv_ok w _ Hw HS (Qneq_pos _ PS)) as D. fold t in D. fold S in D.
    assert (B : Qabs (valQ w / S) <= pow2 127).
    { apply Qabs_le in Bw. assert (E : valQ w / S * S == valQ w) by (field; apply Qneq_pos; exact PS).
      apply Qabs_le. split; nra. }
    pose proof thr24_big. assert (T : Qabs (valQ w / S) < thr24) by lra.
    pose proof (rounded_float _ _ D T) as Ft. apply Qabs_le in B.
    assert (I : in_format 24 128 (pow2 127)) by (exists (2 ^ 23)%Z, 104%Z; split; [lia | reflexivity]).
    assert (U : valQ t <= pow2 127) by (apply (rounded_le 24 128 _ _ _ D T I); lra).
    assert (V : - pow2 127 <= valQ t) by (apply (rounded_ge 24 128 _ _ _ D T); [apply in_format_opp; exact I | lra]).
    destruct (zp_float _ Hz) as [Fz Ez]. pose proof (fadd_ok _ _ Fz Ft) as A.
    assert (Zr : 0 <= inject_Z (q_zero_point q) <= 255).
    { destruct Hz as [Z1 Z2]. apply inj_le in Z1, Z2. exact (conj Z1 Z2). }
    assert (G : pow2 127 + 255 < thr24) by reflexivity.
    assert (T2 : Qabs (inject_Z (q_zero_point q) + valQ t) < thr24) by (apply Qabs_lt; lra).
    assert (A' : rounded 24 128 (inject_Z (q_zero_point q) + valQ t) (transformed q w)) by (eapply rounded_wd; [| exact A]; rewrite Ez; reflexivity).
    repeat (split; [assumption|]). exact (rounded_float _ _ A' T2). }
  destruct (Q x Hx Bx) as (Fx & Dx & Tx & Ax & Ux & Wx). destruct (Q y Hy By) as (Fy & Dy & Ty & Ay & Uy & Wy). clear Q.
  set (tx := fdiv x (q_scale q)) in *. set (ty := fdiv y (q_scale q)) in *.
  assert (V : valQ (transformed q x) <= valQ (transformed q y)).
  { destruct (Qlt_le_dec (valQ x) (valQ y)) as [C | C].
    - assert (C2 : valQ x / S < valQ y / S).
      { assert (E1 : valQ x / S * S == valQ x) by (field; apply Qneq_pos; exact PS).
        assert (E2 : valQ y / S * S == valQ y) by (field; apply Qneq_pos; exact PS). nra. }
      pose proof (rounded_lt_mono _ _ _ _ C2 Tx Ty Dx Dy) as M.
      destruct (Qlt_le_dec (valQ tx) (valQ ty)) as [G | G].
      + apply (rounded_lt_mono _ _ _ _ ltac:(apply Qplus_lt_r; exact G) Ux Uy Ax Ay).
      + assert (E : valQ tx == valQ ty) by lra. destruct (float_inj tx ty Fx Fy E) as [E2 | E2].
        * unfold transformed. fold tx ty. rewrite E2. apply Qle_refl.
        * unfold transformed. fold tx ty. rewrite (fadd_zero _ tx Hz Fx E2), (fadd_zero _ ty Hz Fy) by (rewrite <- E; exact E2). apply Qle_refl.
    - assert (E : valQ x == valQ y) by lra. destruct (float_inj x y Hx Hy E) as [-> | E2]; [apply Qle_refl|].
      assert (Z : forall w t, is_float t -> rounded 24 128 (valQ w / S) t -> valQ w == 0 -> valQ t == 0).
      { intros w t Ft D Ew. destruct (rounded_exact _ _ p24 _ _ D) as (_ & _ & C2).
        - apply (in_format_wd _ _ 0); [rewrite Ew; unfold Qdiv; ring | exact (zero_in_format _ _ p24 e128)].
        - rewrite C2, Ew. unfold Qdiv; ring. }
      unfold transformed. fold tx ty.
      rewrite (fadd_zero _ tx Hz Fx (Z x tx Fx Dx E2)), (fadd_zero _ ty Hz Fy) by (apply (Z y ty Fy Dy); rewrite <- E; exact E2).
      apply Qle_refl. }
  destruct (quantize_clamped q x (float_valid _ Wx)) as (n1 & N1 & _ & M1).
  destruct (quantize_clamped q y (float_valid _ Wy)) as (n2 & N2 & _ & M2).
  rewrite En in N1. rewrite Ek in N2. injection N1 as <-. injection N2 as <-.
  destruct (clamp_fin _ Wx) as [_ Cx], (clamp_fin _ Wy) as [_ Cy].
  apply (rounds_away_mono (valQ (clamp (transformed q x))) (valQ (clamp (transformed q y)))); try assumption.
  rewrite Cx, Cy. apply Q.max_le_compat_l, Q.min_le_compat_l, V.
Qed.
