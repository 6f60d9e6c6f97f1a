From Verif Require Import Base BaseLemmas CommonModel CommonProofs PackModel.

(* ---- 32-bit accumulation in either overflow mode ---- *)
Definition okZ (m : ovf) (z : Z) : Prop := m = Wrap \/ int_min 32 <= z <= int_max 32.

Lemma norm_ok m z : okZ m z -> norm m 32 z = Some (wrapS 32 z).
Proof.
  intros [->|H]; [reflexivity|]. rewrite norm_fits, wrapS_small by lia. reflexivity.
Qed.
Lemma okZ_wrap m z : okZ m z -> okZ m (wrapS 32 z).
Proof. intros [->|H]; [left; reflexivity|]. right. rewrite wrapS_small by lia. exact H. Qed.
Lemma norm_acc m a b : okZ m a -> okZ m b -> okZ m (a + b) ->
  norm m 32 (wrapS 32 a + wrapS 32 b) = Some (wrapS 32 (a + b)).
Proof.
  intros Ha Hb Hab. destruct m.
  - cbn [norm]. rewrite wrapS_add_l, wrapS_add_r by lia. reflexivity.
  - destruct Ha as [|Ha]; [discriminate|]. destruct Hb as [|Hb]; [discriminate|].
    rewrite (wrapS_small 32 a), (wrapS_small 32 b) by lia. apply norm_ok, Hab.
Qed.
Lemma norm_acc1 m a b : okZ m a -> okZ m (a + b) ->
  norm m 32 (wrapS 32 a + b) = Some (wrapS 32 (a + b)).
Proof.
  intros Ha Hab. destruct m.
  - cbn [norm]. rewrite wrapS_add_l by lia. reflexivity.
  - destruct Ha as [|Ha]; [discriminate|].
    rewrite (wrapS_small 32 a) by lia. apply norm_ok, Hab.
Qed.

(* ---- position of (w,d) inside a run ---- *)
Definition ci (f : side_fmt) (w d : Z) : Z :=
  (d / sf_cd f * sf_cells f + w / sf_cw f) * sf_cellsize f + off f (w mod sf_cw f) (d mod sf_cd f).

Section CellIndex.
Variable f : side_fmt.
Hypothesis Hf : side_fmt_ok f.

Lemma f_pos : 0 < sf_cw f /\ 0 < sf_cd f /\ 0 < sf_cells f /\ 0 < sf_width f /\ 0 < sf_cellsize f.
Proof. destruct Hf as (?&?&?&_). unfold sf_width, sf_cellsize. nia. Qed.

Lemma ci_cell i j w d : 0 <= w < sf_cw f -> 0 <= d < sf_cd f ->
  ci f (j * sf_cw f + w) (i * sf_cd f + d) = (i * sf_cells f + j) * sf_cellsize f + off f w d.
Proof.
  intros Hw Hd. unfold ci.
  rewrite !(Z.add_comm (_ * _) w), !(Z.add_comm (_ * _) d).
  rewrite !Z.div_add, !Z_mod_plus_full by lia.
  rewrite (Z.div_small w), (Z.div_small d), (Z.mod_small w), (Z.mod_small d) by lia.
  reflexivity.
Qed.

Lemma ci_bounds w d : 0 <= w < sf_width f -> 0 <= d ->
  0 <= w / sf_cw f < sf_cells f /\ 0 <= d / sf_cd f /\
  0 <= off f (w mod sf_cw f) (d mod sf_cd f) < sf_cellsize f.
Proof.
  intros Hw Hd. destruct f_pos as (A&B&C&D&E).
  split; [split; [apply Z.div_pos; lia|apply Z.div_lt_upper_bound; unfold sf_width in *; lia]|].
  split; [apply Z.div_pos; lia|].
  apply off_range; [exact Hf|apply Z.mod_pos_bound; lia|apply Z.mod_pos_bound; lia].
Qed.

Lemma ci_range w d D : 0 <= w < sf_width f -> 0 <= d < D -> (sf_cd f | D) ->
  0 <= ci f w d < sf_width f * D.
Proof.
  intros Hw Hd [q Hq]. destruct f_pos as (A&B&C&E&F).
  destruct (ci_bounds w d Hw ltac:(lia)) as (H1&H2&H3).
  assert (Hdq : d / sf_cd f < q) by (apply Z.div_lt_upper_bound; lia).
  unfold ci. set (dd := d / sf_cd f) in *. set (ww := w / sf_cw f) in *.
  set (o := off f _ _) in *. clearbody dd ww o.
  assert (E1 : sf_width f * D = q * sf_cells f * sf_cellsize f).
  { rewrite Hq. unfold sf_width, sf_cellsize. ring. }
  rewrite E1.
  assert (0 <= dd * sf_cells f + ww <= q * sf_cells f - 1) by nia.
  nia.
Qed.

Lemma ci_inj w d w' d' : 0 <= w < sf_width f -> 0 <= d -> 0 <= w' < sf_width f -> 0 <= d' ->
  ci f w d = ci f w' d' -> w = w' /\ d = d'.
Proof.
  intros Hw Hd Hw' Hd' H. destruct f_pos as (A&B&C&E&F).
  destruct (ci_bounds w d Hw Hd) as (H1&H2&H3).
  destruct (ci_bounds w' d' Hw' Hd') as (H1'&H2'&H3').
  unfold ci in H.
  apply divmod_unique in H; try assumption.
  destruct H as [Hc Ho].
  apply divmod_unique in Hc; try assumption. destruct Hc as [Hcd Hcw].
  apply off_inj in Ho; try assumption; try (apply Z.mod_pos_bound; assumption).
  destruct Ho as [How Hod].
  rewrite (Z.div_mod w (sf_cw f)), (Z.div_mod w' (sf_cw f)), (Z.div_mod d (sf_cd f)), (Z.div_mod d' (sf_cd f)) by lia.
  rewrite Hcd, Hcw, How, Hod. split; reflexivity.
Qed.

Lemma ci_shift w k d : (sf_cd f | k) -> ci f w (k + d) = sf_width f * k + ci f w d.
Proof.
  intros [q ->]. destruct f_pos as (A&B&_). unfold ci.
  rewrite (Z.add_comm (q * _)), Z.div_add, Z_mod_plus_full by lia.
  unfold sf_width, sf_cellsize. ring.
Qed.
End CellIndex.

(* ---- the whole packed buffer ---- *)
Definition packed_pos (f : side_fmt) (p : side_params) (w d : Z) : Z :=
  let d0 := d / sp_l1_depth p * sp_l1_depth p in
  let w0 := w / sf_width f * sf_width f in
  run_pos p w0 d0 + ci f (w - w0) (d - d0).

(* what the block parameters guarantee for one side *)
Definition sp_ok (f : side_fmt) (kreg : Z) (p : side_params) : Prop :=
  0 < sp_l1_depth p /\ 0 < sp_l1_width p /\ 0 < sp_l2_width p /\ 0 < sp_l2_depth p /\
  (kreg | sp_l1_depth p) /\ (kreg | sp_l2_depth p) /\
  (sf_width f | sp_l1_width p) /\ (sf_width f | sp_l2_width p).

Lemma mult_div_eq a n x : 0 < n -> 0 <= x < n -> (a * n + x) / n * n = a * n.
Proof. intros Hn Hx. rewrite Z.add_comm, Z.div_add, Z.div_small by lia. lia. Qed.

(* arithmetic of the run blocks *)
Lemma block_le a kW W k : 0 <= a -> 0 < kW -> 0 < k -> (a + 1) * kW <= W ->
  0 <= a * kW * k /\ a * kW * k + kW * k <= W * k.
Proof.
  intros Ha Hk Hkk H. split.
  - apply Z.mul_nonneg_nonneg; [apply Z.mul_nonneg_nonneg; lia|lia].
  - replace (a * kW * k + kW * k) with ((a + 1) * kW * k) by ring.
    apply Z.mul_le_mono_nonneg_r; lia.
Qed.
Lemma depth_lt W l1 b b' k : 0 < W -> b < b' -> k <= l1 -> 0 < l1 ->
  W * (b * l1) + W * k <= W * (b' * l1).
Proof.
  intros HW Hb Hk Hl. rewrite <- Z.mul_add_distr_l. apply Z.mul_le_mono_nonneg_l; [lia|].
  assert ((b + 1) * l1 <= b' * l1) by (apply Z.mul_le_mono_nonneg_r; lia). lia.
Qed.

Section Layout.
Variables (f : side_fmt) (kreg : Z) (p : side_params).
Hypothesis Hf : side_fmt_ok f.
Hypothesis Hreg : 0 < kreg.
Hypothesis Hcdreg : (sf_cd f | kreg).
Hypothesis Hp : sp_ok f kreg p.
Let W := sp_l2_width p.
Let Dm := sp_l2_depth p.
Let kW := sf_width f.
Let l1 := sp_l1_depth p.

Lemma packed_pos_run sw d0 w d : (kW | sw) -> (l1 | d0) -> 0 <= w < kW -> 0 <= d < l1 ->
  packed_pos f p (sw + w) (d0 + d) = run_pos p sw d0 + ci f w d.
Proof.
  intros [a Ha] [b Hb] Hw Hd. unfold packed_pos. fold kW l1.
  destruct Hp as (P1&P2&P3&P4&P5&P6&P7&P8).
  rewrite Ha, Hb. rewrite !mult_div_eq by lia.
  f_equal. f_equal; lia.
Qed.

Lemma pos_facts : 0 < l1 /\ 0 < W /\ 0 < Dm /\ 0 < kW.
Proof.
  destruct (f_pos f Hf) as (_&_&_&E&_). destruct Hp as (P1&P2&P3&P4&_).
  subst l1 W Dm kW. tauto.
Qed.

Lemma w_decomp w : 0 <= w < W -> exists a x, w = a * kW + x /\ 0 <= x < kW /\ 0 <= a /\ (a + 1) * kW <= W.
Proof.
  intros Hw. destruct (f_pos f Hf) as (_&_&_&E&_). fold kW in E.
  destruct Hp as (P1&P2&P3&P4&P5&P6&P7&[q P8]). fold W kW in P8.
  exists (w / kW), (w mod kW).
  pose proof (Z.div_mod w kW ltac:(lia)). pose proof (Z.mod_pos_bound w kW ltac:(lia)).
  assert (0 <= w / kW) by (apply Z.div_pos; lia).
  assert (w / kW < q) by (apply Z.div_lt_upper_bound; lia).
  split; [lia|]. split; [lia|]. split; [lia|]. nia.
Qed.

Lemma d_decomp d : 0 <= d < Dm -> exists b y, d = b * l1 + y /\ 0 <= y < l1 /\ 0 <= b /\
  y < Dm - b * l1.
Proof.
  intros Hd. destruct Hp as (P1&P2&P3&P4&P5&P6&P7&P8). fold l1 in P1.
  exists (d / l1), (d mod l1).
  pose proof (Z.div_mod d l1 ltac:(lia)). pose proof (Z.mod_pos_bound d l1 ltac:(lia)).
  assert (0 <= d / l1) by (apply Z.div_pos; lia).
  split; [lia|]. split; [lia|]. split; [lia|]. nia.
Qed.

Lemma krd_facts b : 0 <= b -> b * l1 < Dm ->
  let krd := Z.min l1 (Dm - b * l1) in 0 < krd /\ (sf_cd f | krd) /\ b * l1 + krd <= Dm.
Proof.
  intros Hb Hlt krd. destruct Hp as (P1&P2&P3&P4&P5&P6&P7&P8). fold l1 in P1, P5. fold Dm in P6.
  split; [lia|]. split; [|lia].
  assert (H1 : (sf_cd f | l1)) by (exact (Z.divide_trans _ _ _ Hcdreg P5)).
  assert (H2 : (sf_cd f | Dm)) by (exact (Z.divide_trans _ _ _ Hcdreg P6)).
  subst krd. destruct (Z.min_spec l1 (Dm - b * l1)) as [[_ ->]|[_ ->]]; [exact H1|].
  apply Z.divide_sub_r; [exact H2|]. apply Z.divide_mul_r, H1.
Qed.

Lemma packed_pos_decomp a x b y : 0 <= x < kW -> 0 <= y < l1 ->
  packed_pos f p (a * kW + x) (b * l1 + y) =
  W * (b * l1) + (a * kW) * Z.min l1 (Dm - b * l1) + ci f x y.
Proof.
  intros Hx Hy. rewrite packed_pos_run by (try assumption; eexists; reflexivity).
  reflexivity.
Qed.

Lemma packed_pos_range w d : 0 <= w < W -> 0 <= d < Dm -> 0 <= packed_pos f p w d < W * Dm.
Proof.
  intros Hw Hd. destruct (w_decomp w Hw) as (a&x&->&Hx&Ha&Ha1).
  destruct (d_decomp d Hd) as (b&y&->&Hy&Hb&Hy1).
  rewrite packed_pos_decomp by assumption.
  destruct (krd_facts b Hb ltac:(lia)) as (K1&K2&K3).
  set (krd := Z.min l1 (Dm - b * l1)) in *.
  pose proof (ci_range f Hf x y krd Hx ltac:(lia) K2) as R. fold kW in R.
  destruct pos_facts as (F1&F2&F3&F4).
  destruct (block_le a kW W krd Ha F4 K1 Ha1) as [B1 B2].
  assert (0 <= W * (b * l1)) by (apply Z.mul_nonneg_nonneg; [lia|apply Z.mul_nonneg_nonneg; lia]).
  assert (W * (b * l1) + W * krd <= W * Dm)
    by (rewrite <- Z.mul_add_distr_l; apply Z.mul_le_mono_nonneg_l; lia).
  lia.
Qed.

Lemma packed_pos_inj w d w' d' : 0 <= w < W -> 0 <= d < Dm -> 0 <= w' < W -> 0 <= d' < Dm ->
  packed_pos f p w d = packed_pos f p w' d' -> w = w' /\ d = d'.
Proof.
  intros Hw Hd Hw' Hd'. destruct (w_decomp w Hw) as (a&x&->&Hx&Ha&Ha1).
  destruct (d_decomp d Hd) as (b&y&->&Hy&Hb&Hy1).
  destruct (w_decomp w' Hw') as (a'&x'&->&Hx'&Ha'&Ha1').
  destruct (d_decomp d' Hd') as (b'&y'&->&Hy'&Hb'&Hy1').
  rewrite !packed_pos_decomp by assumption.
  destruct (krd_facts b Hb ltac:(lia)) as (K1&K2&K3).
  destruct (krd_facts b' Hb' ltac:(lia)) as (K1'&K2'&K3').
  set (krd := Z.min l1 (Dm - b * l1)) in *. set (krd' := Z.min l1 (Dm - b' * l1)) in *.
  pose proof (ci_range f Hf x y krd Hx ltac:(lia) K2) as R. fold kW in R.
  pose proof (ci_range f Hf x' y' krd' Hx' ltac:(lia) K2') as R'. fold kW in R'.
  destruct pos_facts as (F1&F2&F3&EW).
  destruct (block_le a kW W krd Ha EW K1 Ha1) as [B1 B2].
  destruct (block_le a' kW W krd' Ha' EW K1' Ha1') as [B1' B2'].
  intros H.
  assert (Hbb : b = b').
  { destruct (Z.lt_trichotomy b b') as [L|[E|L]]; [exfalso|exact E|exfalso].
    - pose proof (depth_lt W l1 b b' krd F2 L ltac:(lia) F1). lia.
    - pose proof (depth_lt W l1 b' b krd' F2 L ltac:(lia) F1). lia. }
  subst b'. fold krd in krd'. subst krd'.
  assert (H2 : a * (kW * krd) + ci f x y = a' * (kW * krd) + ci f x' y')
    by (rewrite !Z.mul_assoc; lia).
  apply divmod_unique in H2; [|apply Z.mul_pos_pos; lia|lia|lia].
  destruct H2 as [-> Hci]. destruct (ci_inj f Hf x y x' y' Hx ltac:(lia) Hx' ltac:(lia) Hci) as [-> ->].
  split; reflexivity.
Qed.
End Layout.
